(** Proofs that a stream of access units is cut into these, in whatever fragments it comes. *)
From Coq Require Import Lia ZifyBool ZifyNat.
From Verif Require Import Base BaseProofs PatternTime Wrap WrapSpec WrapProofs H264 H264Spec H264StreamSpec H264BitsProofs H264SetsProofs
  H264RbspProofs H264TruncProofs H264FramesProofs H264UnitProofs.
Ltac Zify.zify_post_hook ::= Z.div_mod_to_equations.

(** ** Dictionaries *)
Lemma dget_dput : forall A k (v : A) d, dget k (dput k v d) = Some v.
Proof.
  intros A k v. induction d as [|[j w] d IH]; cbn [dput dget]; [rewrite Z.eqb_refl; reflexivity|].
  destruct (k =? j) eqn:E; cbn [dget]; [rewrite Z.eqb_refl; reflexivity|rewrite E; exact IH].
Qed.
Lemma dget_dput_other : forall A k j (v : A) d, j <> k -> dget j (dput k v d) = dget j d.
Proof.
  intros A k j v d H. induction d as [|[i w] d IH]; cbn [dput dget].
  - replace (j =? k) with false by lia. reflexivity.
  - destruct (k =? i) eqn:E; cbn [dget].
    + replace (j =? k) with false by lia. replace (j =? i) with false by lia. reflexivity.
    + rewrite IH. reflexivity.
Qed.
Lemma Forall_dput : forall A (P : Z * A -> Prop) k v d, P (k, v) -> Forall P d -> Forall P (dput k v d).
Proof.
  intros A P k v d H F. induction F as [|[j w] d Hw F IH]; cbn [dput]; [constructor; [exact H|constructor]|].
  destruct (k =? j); constructor; assumption.
Qed.

(** ** Units that are seen, wholly or in part *)
Definition seen (full : bool) (n : nal) (b : bytes) : Prop :=
  (exists m, b = nal_body n ++ zeros m) \/ (full = false /\ exists m, nal_body n = b ++ m).
Definition or_short {A} (full : bool) (r v : res A) : Prop := r = v \/ (full = false /\ r = Err ERead).

Lemma type_seen : forall full n b, headed n -> seen full n b -> or_short full (nal_unit_type (0 :: 0 :: 1 :: b)) (Ok (type_of n)).
Proof.
  intros full n b H [[m ->]|[F [m E]]].
  - left. apply type_full. exact H.
  - destruct (type_cut n b m H E); [left|right]; auto.
Qed.
Lemma rbsp_seen : forall A full (p : parser A) n b v, cuttable p -> (forall t, exists t', p (nal_bits n ++ t) = Ok (v, t')) -> seen full n b ->
  or_short full (on_rbsp (0 :: 0 :: 1 :: b) p) (Ok v).
Proof.
  intros A full p n b v C H [[m ->]|[F [m E]]].
  - left. apply on_rbsp_full. exact H.
  - destruct (on_rbsp_cut A p n b m v C H E); [left|right]; auto.
Qed.
Lemma findall_seen : forall full n b i, seen full n b -> findall 0 0 1 i b = [].
Proof.
  intros full n b i [[m ->]|[_ [m E]]]; [apply findall_body|exact (findall_cut n b m i E)].
Qed.

Definition act (ps : param_sets) (n : nal) : param_sets :=
  match n with
  | SeqU q _ => mkPs (dput (q_id q) (sps_of q) (sps_sets ps)) (pps_sets ps)
  | PicU p _ => mkPs (sps_sets ps) (dput (i_id p) (pps_of p) (pps_sets ps))
  | _ => ps
  end.

Lemma before_headed : forall n, before_ok n -> headed n.
Proof.
  intros [q t|p t|q p s t|r k t] H; cbn [before_ok] in H; unfold headed; cbn [ref_of type_of]; unfold below in *.
  - destruct H as [H _]. unfold below in H. lia.
  - destruct H as [[H _] _]. unfold below in H. lia.
  - contradiction.
  - lia.
Qed.

Lemma sps_seen : forall q t u, seq_ok q -> exists t', parse_sps (nal_bits (SeqU q t) ++ u) = Ok (sps_of q, t').
Proof. intros q t u H. eexists. cbn [nal_bits]. rewrite <- app_assoc. apply parse_sps_read. exact H. Qed.
Lemma pps_seen : forall p t u, pic_ok p -> readable_groups p -> exists t', parse_pps (nal_bits (PicU p t) ++ u) = Ok (pps_of p, t').
Proof. intros p t u H R. eexists. cbn [nal_bits]. rewrite <- app_assoc. apply parse_pps_read; assumption. Qed.
Lemma slice_seen : forall ps q p s t u, holds ps q p (s_pic s) -> seq_ok q -> slice_ok q p s ->
  exists t', parse_slice_header ps (nal_bits (SliceU q p s t) ++ u) = Ok (header_of s, t').
Proof. intros ps q p s t u H Q S. eexists. cbn [nal_bits]. rewrite <- app_assoc. apply parse_slice_read; assumption. Qed.

Lemma take_before : forall full ps n b, before_ok n -> seen full n b ->
  or_short full (take_unit ps [] (0 :: 0 :: 1 :: b)) (Ok (Some (act ps n, []))).
Proof.
  intros full ps n b H S. unfold take_unit.
  destruct (type_seen full n b (before_headed n H) S) as [->|[F ->]]; [|right; auto]. cbn [rbind negb andb].
  destruct n as [q t|p t|q p s t|r k t]; cbn [before_ok type_of act] in *.
  - change (is_slice 7) with false. cbv iota. change (7 =? 7) with true. cbv iota.
    destruct (rbsp_seen _ full parse_sps _ b (sps_of q) (proj2 tame_sps) (fun u => sps_seen q t u H) S) as [->|[F ->]]; [left|right; auto].
    cbn [rbind]. reflexivity.
  - change (is_slice 8) with false. change (8 =? 7) with false. change (8 =? 8) with true. cbv iota. destruct H as [H R].
    destruct (rbsp_seen _ full parse_pps _ b (pps_of p) (proj2 tame_pps) (fun u => pps_seen p t u H R) S) as [->|[F ->]]; [left|right; auto].
    cbn [rbind]. reflexivity.
  - contradiction.
  - left. unfold is_slice. replace (_ || _) with false by lia. replace (k =? 7) with false by lia. replace (k =? 8) with false by lia. reflexivity.
Qed.

(** ** What the parser knows *)
Definition knows (ps : param_sets) (k : known) : Prop :=
  sets_ok ps /\
  (forall id q, k_seq k id = Some q -> dget id (sps_sets ps) = Some (sps_of q)) /\
  (forall id p, k_pic k id = Some p -> dget id (pps_sets ps) = Some (pps_of p)).

Lemma knows_holds : forall ps k q p s, knows ps k -> refers k q p s -> holds ps q p (s_pic s).
Proof. intros ps k q p s (_ & A & B) (C & D). split; [apply B; exact C|apply A; exact D]. Qed.

Lemma holds_active : forall ps q p s, holds ps q p (s_pic s) -> active ps (s_pic s) = Ok (pps_of p, sps_of q).
Proof. intros ps q p s [A B]. unfold active. rewrite A. cbn [pps_of pps_sps_id]. rewrite B. reflexivity. Qed.

Lemma slice_headed : forall q p s t, slice_ok q p s -> headed (SliceU q p s t) /\ is_slice (s_unit s) = true.
Proof.
  intros q p s t (A & B & _). unfold headed, is_slice. cbn [ref_of type_of]. unfold below in *.
  cbn [In] in B. lia.
Qed.

Lemma num_eqb : forall a b, (num a =? num b) = Bool.eqb a b.
Proof. intros [|] [|]; reflexivity. Qed.
Lemma num_0 : forall a, (num a =? 0) = negb a.
Proof. intros [|]; reflexivity. Qed.
Lemma num_1 : forall a, (num a =? 1) = a.
Proof. intros [|]; reflexivity. Qed.

Definition poc_differs (q : seq_set) (s f : slice_part) : bool :=
  match q_poc q with
  | Poc0 _ => negb (s_lsb s =? s_lsb f) || negb (s_delta_bottom s =? s_delta_bottom f)
  | Poc1 _ _ _ _ => negb (s_delta_0 s =? s_delta_0 f) || negb (s_delta_1 s =? s_delta_1 f)
  | Poc2 => false
  end.

Lemma other_new : forall q s f, other_picture (sps_of q) (header_of s) (header_of f) =
  negb (s_pic s =? s_pic f) || negb (s_frame_num s =? s_frame_num f) || negb (Bool.eqb (s_field s) (s_field f)) ||
  (s_field s && negb (Bool.eqb (s_bottom s) (s_bottom f))) ||
  (negb (s_ref s =? s_ref f) && (negb (s_ref s =? 0) || negb (s_ref f =? 0))) ||
  negb (Bool.eqb (s_unit s =? 5) (s_unit f =? 5)) || ((s_unit s =? 5) && negb (s_idr s =? s_idr f)) || poc_differs q s f.
Proof.
  intros q s f. unfold other_picture, header_of, sps_of, poc_differs.
  cbn [sh_pps_id sh_frame_num sh_field sh_bottom sh_ref_idc sh_idr sh_idr_id sh_lsb sh_delta_bottom sh_delta_0 sh_delta_1 pic_order_cnt_type].
  rewrite !num_eqb, !num_0, !num_1, negb_involutive. rewrite <- !orb_assoc. repeat f_equal.
  destruct (q_poc q); cbn [Z.eqb Pos.eqb andb orb]; rewrite ?orb_false_r; reflexivity.
Qed.

Lemma new_other : forall q s f, new_picture q s f = true -> other_picture (sps_of q) (header_of s) (header_of f) = true.
Proof.
  intros q s f H. rewrite other_new. unfold new_picture in H. fold (poc_differs q s f) in H.
  rewrite !orb_true_iff in *. repeat rewrite andb_true_iff in *. rewrite !orb_true_iff in *.
  destruct H as [[[[[[[H|H]|H]|H]|H]|H]|H]|H]; try tauto.
  assert (X : negb (s_ref s =? 0) = true \/ negb (s_ref f =? 0) = true) by lia. tauto.
Qed.

Lemma same_other : forall q s f, new_picture q s f = false -> s_ref s = s_ref f ->
  other_picture (sps_of q) (header_of s) (header_of f) = false.
Proof.
  intros q s f H R. rewrite other_new. unfold new_picture in H. fold (poc_differs q s f) in H.
  rewrite !orb_false_iff in H. destruct H as [[[[[[[A B] C] D] E] G] I] J]. rewrite A, B, C, D, G, I.
  replace (s_ref s =? s_ref f) with true by lia. cbn [negb andb orb]. rewrite orb_false_r.
  destruct (s_unit s =? 5); [|reflexivity]. destruct (s_unit f =? 5); [exact J|discriminate].
Qed.

Lemma take_slice : forall full ps k q p s t b, knows ps k -> slice_known k q p s -> seen full (SliceU q p s t) b -> forall hs,
  or_short full (take_unit ps hs (0 :: 0 :: 1 :: b))
    (if s_redundant s =? 0 then
       match hs with
       | f :: _ => if other_picture (sps_of q) (header_of s) f then Ok None else Ok (Some (ps, hs ++ [header_of s]))
       | [] => Ok (Some (ps, hs ++ [header_of s]))
       end
     else Ok (Some (ps, hs))).
Proof.
  intros full ps k q p s t b K (Q & S & R) V hs. unfold take_unit.
  destruct (slice_headed q p s t S) as [H T]. pose proof (knows_holds _ _ _ _ _ K R) as Ho.
  destruct (type_seen full _ b H V) as [->|[F ->]]; [|right; auto]. cbn [rbind type_of]. rewrite T.
  destruct (rbsp_seen _ full (parse_slice_header ps) _ b (header_of s) (proj2 (tame_slice ps (proj1 K)))
              (fun u => slice_seen ps q p s t u Ho Q S) V) as [->|[F ->]]; [left|right; auto].
  cbn [rbind]. change (sh_pps_id (header_of s)) with (s_pic s). rewrite (holds_active _ _ _ _ Ho). cbn [rbind snd].
  change (sh_redundant (header_of s)) with (s_redundant s). destruct (s_redundant s =? 0); reflexivity.
Qed.

Lemma take_after : forall full ps k f hs u b, knows ps k -> after_ok k f (snd u) -> seen full (snd u) b ->
  or_short full (take_unit ps (header_of f :: hs) (0 :: 0 :: 1 :: b)) (Ok (Some (ps, (header_of f :: hs) ++ map header_of (primary u)))).
Proof.
  intros full ps k f hs [l [q t|p t|q p s t|r y t]] b K H S; cbn [snd] in *; cbn [after_ok] in H; try contradiction.
  - destruct H as [H N]. unfold primary. cbn [snd]. destruct (take_slice full ps k q p s t b K H S (header_of f :: hs)) as [E|E]; [|right; exact E].
    left. rewrite E. destruct (s_redundant s =? 0) eqn:Z; [|rewrite app_nil_r; reflexivity].
    destruct (N ltac:(lia)) as [N1 N2]. rewrite (same_other q s f N1 N2). reflexivity.
  - unfold take_unit. assert (Hd : headed (OtherU r y t)) by (unfold headed; cbn [ref_of type_of]; unfold below in *; lia).
    destruct (type_seen full _ b Hd S) as [->|[F ->]]; [|right; auto]. cbn [rbind type_of negb andb].
    left. unfold is_slice, starts_picture. replace ((y =? 1) || (y =? 2) || (y =? 5)) with false by lia.
    replace (_ || _) with false by lia. replace (y =? 7) with false by lia. replace (y =? 8) with false by lia.
    unfold primary. cbn [snd map]. rewrite app_nil_r. reflexivity.
Qed.

(** The unit after an access unit whose first slice is f. *)
Definition breaks (k : known) (f : slice_part) (us : list unit_) : Prop :=
  match us with
  | [] => True
  | u :: _ =>
      (opens (snd u) /\ before_ok (snd u)) \/
      exists q p s t, snd u = SliceU q p s t /\ slice_known k q p s /\ s_redundant s = 0 /\ new_picture q s f = true
  end.

Lemma take_break : forall full ps k f hs u us b, knows ps k -> breaks k f (u :: us) -> seen full (snd u) b ->
  or_short full (take_unit ps (header_of f :: hs) (0 :: 0 :: 1 :: b)) (Ok None).
Proof.
  intros full ps k f hs u us b K [[O B]|(q & p & s & t & E & A & R & N)] S.
  - unfold take_unit. destruct (type_seen full _ b (before_headed _ B) S) as [->|[F ->]]; [|right; auto]. cbn [rbind negb andb]. left.
    destruct (snd u) as [q t|p t|q p s t|r y t]; cbn [opens before_ok type_of] in *; try contradiction; try reflexivity.
    unfold is_slice, starts_picture. replace ((y =? 1) || (y =? 2) || (y =? 5)) with false by lia.
    replace (_ || _) with true by lia. reflexivity.
  - rewrite E in S. destruct (take_slice full ps k q p s t b K A S (header_of f :: hs)) as [X|X]; [|right; exact X].
    left. rewrite X. replace (s_redundant s =? 0) with true by lia. rewrite (new_other q s f N). reflexivity.
Qed.

(** ** What a prefix of a stream shows *)
Definition lead (u : unit_) : nat := fst u.
Definition codes (bs : list bytes) : bytes := flat_map (fun b => 0 :: 0 :: 1 :: b) bs.
Inductive sees (full : bool) : list unit_ -> nat -> list bytes -> Prop :=
| sees_end : forall us k, (full = true -> us = []) -> sees full us k []
| sees_cut : forall u us b m, full = false -> nal_body (snd u) = b ++ m -> sees full (u :: us) (lead u) [b]
| sees_unit : forall u us k bs, sees full us k bs -> sees full (u :: us) (lead u) ((nal_body (snd u) ++ zeros k) :: bs).

Lemma unit_bytes_lead : forall u, unit_bytes u = zeros (lead u) ++ 0 :: 0 :: 1 :: nal_body (snd u).
Proof. reflexivity. Qed.

Lemma prefix_cases : forall A (a b c d : list A), a ++ b = c ++ d ->
  (exists e, a = c ++ e /\ e ++ b = d) \/ (exists e, c = a ++ e /\ e <> [] /\ e ++ d = b).
Proof.
  induction a as [|x a IH]; intros b c d H.
  - destruct c as [|y c]; [left; exists []; split; [reflexivity|exact H]|].
    right. exists (y :: c). split; [reflexivity|]. split; [discriminate|]. symmetry. exact H.
  - destruct c as [|y c]; [left; exists (x :: a); split; [reflexivity|exact H]|].
    cbn [app] in H. assert (x = y) by congruence. subst y. destruct (IH b c d ltac:(congruence)) as [(e & -> & E)|(e & -> & N & E)].
    + left. exists e. split; [reflexivity|exact E].
    + right. exists e. split; [reflexivity|]. split; assumption.
Qed.

Lemma code_prefix : forall l a e, zeros l ++ [0; 0; 1] = a ++ e -> e <> [] -> a = zeros (length a).
Proof.
  induction l as [|l IH]; intros a e H N.
  - cbn [zeros repeat app] in H. change (zeros 0) with (@nil Z) in H. cbn [app] in H.
    destruct a as [|x [|y [|z a]]]; cbn [app] in H; cbn [length]; [reflexivity| | |].
    + assert (x = 0) by congruence. subst. reflexivity.
    + assert (x = 0) by congruence. assert (y = 0) by congruence. subst. reflexivity.
    + exfalso. apply N. assert (a ++ e = []) by congruence. apply app_eq_nil in H0. tauto.
  - destruct a as [|x a]; [reflexivity|]. change (zeros (S l)) with (0 :: zeros l) in H. cbn [app] in H.
    assert (x = 0) by congruence. subst x. cbn [length]. change (zeros (S (length a))) with (0 :: zeros (length a)). f_equal.
    apply (IH a e); [congruence|exact N].
Qed.

Definition is_nil {A} (l : list A) : bool := match l with [] => true | _ => false end.

Lemma visible : forall us z d m, d ++ m = flat_map unit_bytes us ++ zeros z ->
  exists k bs, d = zeros k ++ codes bs /\ sees (is_nil m) us k bs.
Proof.
  induction us as [|u us IH]; intros z d m H.
  - cbn [flat_map app] in H. exists (length d), []. split; [|apply sees_end; reflexivity]. cbn [codes flat_map]. rewrite app_nil_r.
    clear - H. revert d H. induction z as [|z IH]; intros [|x d] H; [reflexivity|discriminate|reflexivity|].
    change (zeros (S z)) with (0 :: zeros z) in H. cbn [app] in H. injection H as -> H. cbn [length].
    change (zeros (S (length d))) with (0 :: zeros (length d)). f_equal. apply IH. exact H.
  - cbn [flat_map] in H. rewrite unit_bytes_lead in H.
    replace (((zeros (lead u) ++ 0 :: 0 :: 1 :: nal_body (snd u)) ++ flat_map unit_bytes us) ++ zeros z)
      with ((zeros (lead u) ++ [0; 0; 1]) ++ nal_body (snd u) ++ flat_map unit_bytes us ++ zeros z) in H
      by (rewrite <- !app_assoc; reflexivity).
    destruct (prefix_cases _ _ _ _ _ H) as [(e & -> & E)|(e & E & N & E2)].
    + destruct (prefix_cases _ _ _ _ _ E) as [(e2 & -> & E3)|(e2 & E3 & N & E4)].
      * destruct (IH z _ _ E3) as (k & bs & -> & S). exists (lead u), ((nal_body (snd u) ++ zeros k) :: bs).
        split; [|apply sees_unit; exact S]. unfold codes. cbn [flat_map app]. rewrite <- !app_assoc. cbn [app]. rewrite <- ?app_assoc. reflexivity.
      * exists (lead u), [e]. split; [unfold codes; cbn [flat_map app]; rewrite <- !app_assoc, app_nil_r; reflexivity|].
        apply (sees_cut _ u us e e2); [|exact E3]. destruct m; [|reflexivity]. apply app_eq_nil in E4 as [E4 _]. contradiction.
    + exists (length d), []. split; [|apply sees_end; destruct m; [|discriminate]; apply app_eq_nil in E2 as [E2 _]; contradiction].
      cbn [codes flat_map]. rewrite app_nil_r. exact (code_prefix _ _ _ E N).
Qed.

Lemma sees_clean : forall full us k bs, sees full us k bs -> Forall (fun b => forall i, findall 0 0 1 i b = []) bs.
Proof.
  intros full us k bs H. induction H as [us k _|u us b m _ E|u us k bs H IH]; [constructor| |].
  - constructor; [|constructor]. intros i. exact (findall_cut _ _ _ _ E).
  - constructor; [|exact IH]. intros i. apply findall_body.
Qed.

(** ** The loop over these *)
Fixpoint walk (ps : param_sets) (hs : list slice_header) (taken : list Z) (off : Z) (bs : list bytes)
  : param_sets * res (list slice_header * list Z * option Z) :=
  match bs with
  | [] => (ps, Ok (hs, taken, None))
  | b :: bs =>
      match take_unit ps hs (0 :: 0 :: 1 :: b) with
      | Err e => (ps, Err e)
      | Ok None => (ps, Ok (hs, taken, Some off))
      | Ok (Some (ps, hs)) => walk ps hs (taken ++ [off]) (off + 3 + zlen b) bs
      end
  end.
Fixpoint places (off : Z) (bs : list bytes) : list Z :=
  match bs with [] => [] | b :: bs => off :: places (off + 3 + zlen b) bs end.

Lemma findall_codes : forall bs i, Forall (fun b => forall i, findall 0 0 1 i b = []) bs -> findall 0 0 1 i (codes bs) = places i bs.
Proof.
  induction bs as [|b bs IH]; intros i F; [reflexivity|]. cbn [codes flat_map app places]. fold (codes bs).
  rewrite findall_code. f_equal. pose proof (Forall_inv F) as Fb. pose proof (Forall_inv_tail F) as Fbs. cbv beta in Fb.
  destruct bs as [|c bs]; [cbn [codes flat_map places]; rewrite app_nil_r; apply Fb|].
  rewrite <- (IH (i + 3 + zlen b) Fbs).
  change (codes (c :: bs)) with (0 :: 0 :: 1 :: c ++ codes bs). rewrite findall_split, Fb. reflexivity.
Qed.

Lemma zlen_zeros : forall k, zlen (zeros k) = Z.of_nat k.
Proof. intros k. unfold zlen, zeros. rewrite repeat_length. reflexivity. Qed.

Lemma findall_lead : forall k bs, Forall (fun b => forall i, findall 0 0 1 i b = []) bs ->
  findall 0 0 1 0 (zeros k ++ codes bs) = places (Z.of_nat k) bs.
Proof.
  intros k [|b bs] F; [cbn [codes flat_map places]; rewrite app_nil_r; apply findall_zeros|].
  rewrite <- findall_codes by exact F. change (codes (b :: bs)) with (0 :: 0 :: 1 :: b ++ codes bs).
  rewrite findall_split, findall_zeros, zlen_zeros. reflexivity.
Qed.

Lemma slice_mid : forall (a b c : bytes), slice (a ++ b ++ c) (zlen a) (zlen a + zlen b) = b.
Proof. intros a b c. unfold slice. rewrite zskip_app. replace (zlen a + zlen b - zlen a) with (zlen b) by ring. apply zfirst_app. Qed.

Lemma zlen_code : forall b, zlen (0 :: 0 :: 1 :: b) = 3 + zlen b.
Proof. intros b. rewrite !zlen_cons. ring. Qed.

Lemma codes_slice : forall pre b bs, exists n next, places (zlen pre + 3 + zlen b) bs ++ [zlen (pre ++ codes (b :: bs))] = n :: next /\
  n = zlen pre + 3 + zlen b /\ slice (pre ++ codes (b :: bs)) (zlen pre) n = 0 :: 0 :: 1 :: b /\
  (bs = [] -> next = []) /\ (bs <> [] -> next = tl (places (zlen pre + 3 + zlen b) bs) ++ [zlen (pre ++ codes (b :: bs))]).
Proof.
  intros pre b bs. assert (S : slice (pre ++ codes (b :: bs)) (zlen pre) (zlen pre + 3 + zlen b) = 0 :: 0 :: 1 :: b).
  { change (codes (b :: bs)) with ((0 :: 0 :: 1 :: b) ++ codes bs).
    replace (zlen pre + 3 + zlen b) with (zlen pre + zlen (0 :: 0 :: 1 :: b)) by (rewrite zlen_code; ring). apply slice_mid. }
  destruct bs as [|c bs].
  - exists (zlen pre + 3 + zlen b), []. cbn [places app]. split; [|split; [reflexivity|split; [exact S|split; [reflexivity|congruence]]]].
    f_equal. cbn [codes flat_map]. rewrite app_nil_r, zlen_app, zlen_code. ring.
  - exists (zlen pre + 3 + zlen b). eexists. cbn [places app]. split; [reflexivity|]. split; [reflexivity|]. split; [exact S|].
    split; [discriminate|]. intros _. reflexivity.
Qed.

Lemma take_units_walk : forall bs b pre ps hs taken,
  take_units (pre ++ codes (b :: bs)) ps hs taken (zlen pre) (places (zlen pre + 3 + zlen b) bs ++ [zlen (pre ++ codes (b :: bs))]) =
  walk ps hs taken (zlen pre) (b :: bs).
Proof.
  induction bs as [|c bs IH]; intros b pre ps hs taken.
  - destruct (codes_slice pre b []) as (n & next & E & En & S & N & _). rewrite E. cbn [take_units walk]. rewrite S, (N eq_refl).
    destruct (take_unit ps hs (0 :: 0 :: 1 :: b)) as [[[ps1 hs1]|]|e]; reflexivity.
  - destruct (codes_slice pre b (c :: bs)) as (n & next & E & En & S & _ & N). rewrite E. cbn [take_units]. rewrite S.
    change (walk ps hs taken (zlen pre) (b :: c :: bs)) with
      (match take_unit ps hs (0 :: 0 :: 1 :: b) with
       | Err e => (ps, Err e)
       | Ok None => (ps, Ok (hs, taken, Some (zlen pre)))
       | Ok (Some (ps, hs)) => walk ps hs (taken ++ [zlen pre]) (zlen pre + 3 + zlen b) (c :: bs)
       end).
    destruct (take_unit ps hs (0 :: 0 :: 1 :: b)) as [[[ps1 hs1]|]|e]; [|reflexivity|reflexivity].
    rewrite (N ltac:(discriminate)), En. cbn [places tl].
    assert (L : zlen (pre ++ 0 :: 0 :: 1 :: b) = zlen pre + 3 + zlen b) by (rewrite zlen_app, zlen_code; ring).
    specialize (IH c (pre ++ 0 :: 0 :: 1 :: b) ps1 hs1 (taken ++ [zlen pre])). rewrite L in IH.
    replace (pre ++ codes (b :: c :: bs)) with ((pre ++ 0 :: 0 :: 1 :: b) ++ codes (c :: bs)) by (rewrite <- app_assoc; reflexivity).
    exact IH.
Qed.

Lemma parse_frame_walk : forall ps full us k b bs, sees full us k (b :: bs) ->
  let d := zeros k ++ codes (b :: bs) in
  parse_frame ps d =
  match walk ps [] [] (Z.of_nat k) (b :: bs) with
  | (ps, Err ERead) => (ps, Ok None)
  | (ps, Err e) => (ps, Err e)
  | (ps, Ok (_, _, None)) => (ps, Ok None)
  | (ps, Ok (headers, taken, Some offset)) =>
      match extract_frame_info ps headers with
      | Err ERead => (ps, Ok None)
      | Err e => (ps, Err e)
      | Ok info => (ps, Ok (Some (if (0 <? offset) && (nth (Z.to_nat (offset - 1)) d 0 =? 0) then offset - 1 else offset, taken, info)))
      end
  end.
Proof.
  intros ps full us k b bs S d. pose proof (findall_lead k (b :: bs) (sees_clean _ _ _ _ S)) as L. fold d in L. unfold parse_frame. rewrite L. cbn [places].
  pose proof (take_units_walk bs b (zeros k) ps [] []) as W. rewrite zlen_zeros in W. fold d in W. rewrite W.
  destruct (walk ps [] [] (Z.of_nat k) (b :: bs)) as [ps1 [[[hs t] [o|]]|e]]; reflexivity.
Qed.

(** ** Access units *)
Definition total (us : list unit_) : Z := zlen (flat_map unit_bytes us).
Lemma total_cons : forall u us, total (u :: us) = zlen (unit_bytes u) + total us.
Proof. intros u us. unfold total. cbn [flat_map]. apply zlen_app. Qed.
Lemma total_app : forall a b, total (a ++ b) = total a + total b.
Proof. intros a b. unfold total. rewrite flat_map_app. apply zlen_app. Qed.
Lemma zlen_unit : forall u, zlen (unit_bytes u) = Z.of_nat (lead u) + 3 + zlen (nal_body (snd u)).
Proof. intros u. rewrite unit_bytes_lead, zlen_app, zlen_zeros, zlen_code. ring. Qed.
Lemma codes_from_cons : forall u us i, codes_from i (u :: us) = (i + Z.of_nat (lead u)) :: codes_from (i + zlen (unit_bytes u)) us.
Proof. reflexivity. Qed.
Lemma codes_from_app : forall a b i, codes_from i (a ++ b) = codes_from i a ++ codes_from (i + total a) b.
Proof.
  induction a as [|u a IH]; intros b i; [cbn [app codes_from]; change (total []) with 0; rewrite Z.add_0_r; reflexivity|].
  cbn [app]. rewrite !codes_from_cons, IH, total_cons, Z.add_assoc. reflexivity.
Qed.

Lemma seen_cut : forall full (u : unit_) b m, full = false -> nal_body (snd u) = b ++ m -> seen full (snd u) b.
Proof. intros full u b m F E. right. split; [exact F|]. exists m. exact E. Qed.
Lemma seen_unit : forall full (u : unit_) k, seen full (snd u) (nal_body (snd u) ++ zeros k).
Proof. intros full u k. left. exists k. reflexivity. Qed.

(** The loop ends without a frame. *)
Definition no_frame (full : bool) (us2 : list unit_) (r : res (list slice_header * list Z * option Z)) : Prop :=
  (full = false /\ r = Err ERead) \/ ((full = true -> us2 = []) /\ exists h t, r = Ok (h, t, None)).

Lemma walk_after : forall full k f us2 after ps hs taken i j bs,
  knows ps k -> Forall (fun u => after_ok k f (snd u)) after -> breaks k f us2 -> sees full (after ++ us2) j bs ->
  let r := walk ps (header_of f :: hs) taken (i + Z.of_nat j) bs in
  fst r = ps /\
  (no_frame full us2 (snd r) \/
   exists u us3, us2 = u :: us3 /\
     snd r = Ok ((header_of f :: hs) ++ map header_of (flat_map primary after), taken ++ codes_from i after, Some (i + total after + Z.of_nat (lead u))) /\
     total after + Z.of_nat (lead u) + 3 <= Z.of_nat j + zlen (codes bs)).
Proof.
  intros full k f us2. induction after as [|u after IH]; intros ps hs taken i j bs K A B S.
  - cbn [app] in S. inversion S as [us j' E|u us b m F E|u us j' bs' S']; subst; cbn [walk].
    + split; [reflexivity|]. left. right. cbn [snd]. split; [exact E|]. eauto.
    + destruct (take_break _ ps k f hs u us b K B (seen_cut _ _ _ _ eq_refl E)) as [->|[G ->]]; cbn [fst snd]; (split; [reflexivity|]).
      * right. exists u, us. split; [reflexivity|]. change (total []) with 0. cbn [flat_map map codes_from]. rewrite !app_nil_r, Z.add_0_r.
        split; [reflexivity|]. cbn [codes flat_map]. rewrite app_nil_r. pose proof (zlen_nonneg b). rewrite zlen_code. lia.
      * left. left. auto.
    + destruct (take_break full ps k f hs u us _ K B (seen_unit full u j')) as [->|[G ->]]; cbn [fst snd]; (split; [reflexivity|]).
      * right. exists u, us. split; [reflexivity|]. change (total []) with 0. cbn [flat_map map codes_from]. rewrite !app_nil_r, Z.add_0_r.
        split; [reflexivity|]. cbn [codes flat_map]. rewrite zlen_app, zlen_code. pose proof (zlen_nonneg (nal_body (snd u) ++ zeros j')).
        pose proof (zlen_nonneg (codes bs')). unfold codes in *. lia.
      * left. left. auto.
  - pose proof (Forall_inv A) as Au. pose proof (Forall_inv_tail A) as At. cbv beta in Au.
    cbn [app] in S. inversion S as [us j' E|u' us b m F E|u' us j' bs' S']; subst.
    + cbn [walk]. split; [reflexivity|]. left. right. cbn [snd]. split; [intros X; specialize (E X); discriminate|]. eauto.
    + cbn [walk]. destruct (take_after _ ps k f hs u b K Au (seen_cut _ _ _ _ eq_refl E)) as [->|[G ->]]; cbn [fst snd]; (split; [reflexivity|]).
      * left. right. split; [congruence|]. eauto.
      * left. left. auto.
    + cbn [walk]. destruct (take_after full ps k f hs u _ K Au (seen_unit full u j')) as [->|[G ->]]; cbn [fst snd]; [|split; [reflexivity|left; left; auto]].
      replace (i + Z.of_nat (lead u) + 3 + zlen (nal_body (snd u) ++ zeros j')) with ((i + zlen (unit_bytes u)) + Z.of_nat j')
        by (rewrite zlen_unit, zlen_app, zlen_zeros; ring).
      cbn [app]. destruct (IH ps (hs ++ map header_of (primary u)) (taken ++ [i + Z.of_nat (lead u)]) (i + zlen (unit_bytes u)) j' bs' K At B S') as [R1 R2].
      split; [exact R1|]. destruct R2 as [R2|(v & us3 & E2 & R2 & R3)]; [left; exact R2|right].
      exists v, us3. split; [exact E2|]. rewrite R2. cbn [flat_map]. rewrite codes_from_cons, total_cons, map_app. split.
      * rewrite <- !app_assoc. cbn [app]. rewrite <- !app_assoc, Z.add_assoc. reflexivity.
      * cbn [codes flat_map]. fold (codes bs'). rewrite zlen_app, zlen_code, zlen_app, zlen_zeros. rewrite zlen_unit. lia.
Qed.

(** Keys that the units set. *)
Definition sets_seq (id : Z) (us : list unit_) : Prop := Exists (fun u => match snd u with SeqU q _ => q_id q = id | _ => False end) us.
Definition sets_pic (id : Z) (us : list unit_) : Prop := Exists (fun u => match snd u with PicU p _ => i_id p = id | _ => False end) us.
Definition ready (ps : param_sets) (k : known) (us : list unit_) : Prop :=
  sets_ok ps /\
  (forall id q, k_seq (fold_left learn us k) id = Some q -> sets_seq id us \/ dget id (sps_sets ps) = Some (sps_of q)) /\
  (forall id p, k_pic (fold_left learn us k) id = Some p -> sets_pic id us \/ dget id (pps_sets ps) = Some (pps_of p)).
Definition grown (us : list unit_) (ps ps' : param_sets) : Prop :=
  sets_ok ps' /\
  (forall id, sets_seq id us \/ dget id (sps_sets ps') = dget id (sps_sets ps)) /\
  (forall id, sets_pic id us \/ dget id (pps_sets ps') = dget id (pps_sets ps)).

Lemma ready_grown : forall us ps ps' k, ready ps k us -> grown us ps ps' -> ready ps' k us.
Proof.
  intros us ps ps' k (A & B & C) (D & E & G). split; [exact D|]. split.
  - intros id q H. destruct (E id) as [X| ->]; [left; exact X|apply B; exact H].
  - intros id p H. destruct (G id) as [X| ->]; [left; exact X|apply C; exact H].
Qed.
Lemma grown_refl : forall us ps, sets_ok ps -> grown us ps ps.
Proof. intros us ps H. split; [exact H|]. split; intros id; right; reflexivity. Qed.

Lemma act_ok : forall ps n, before_ok n -> sets_ok ps -> sets_ok (act ps n).
Proof.
  intros ps [q t|p t|q p s t|r y t] H S; cbn [act]; try exact S.
  unfold sets_ok in *. cbn [sps_sets]. apply Forall_dput; [|exact S]. cbn [snd before_ok] in *.
  destruct H as (_ & _ & _ & _ & _ & _ & F & P & _).
  change (log2_max_frame_num_minus4 (sps_of q)) with (q_frame_num q).
  change (log2_max_pic_order_cnt_lsb_minus4 (sps_of q)) with (match q_poc q with Poc0 n => n | _ => 0 end).
  split; [exact F|]. destruct (q_poc q); cbn [poc_ok] in P; lia.
Qed.

Lemma grown_cons : forall u us ps ps', grown us (act ps (snd u)) ps' -> grown (u :: us) ps ps'.
Proof.
  intros u us ps ps' (A & B & C). split; [exact A|]. split; intros id.
  - destruct (B id) as [X|X]; [left; right; exact X|]. rewrite X. destruct (snd u) as [q t|p t|q p s t|r y t] eqn:E; cbn [act sps_sets]; auto.
    destruct (Z.eq_dec (q_id q) id) as [Y|Y]; [left; left; rewrite E; exact Y|right; apply dget_dput_other; congruence].
  - destruct (C id) as [X|X]; [left; right; exact X|]. rewrite X. destruct (snd u) as [q t|p t|q p s t|r y t] eqn:E; cbn [act pps_sets]; auto.
    destruct (Z.eq_dec (i_id p) id) as [Y|Y]; [left; left; rewrite E; exact Y|right; apply dget_dput_other; congruence].
Qed.

Lemma sets_seq_dec : forall id us, sets_seq id us \/ ~ sets_seq id us.
Proof.
  intros id us. induction us as [|u us IH]; [right; intros H; inversion H|].
  destruct IH as [X|X]; [left; right; exact X|].
  destruct (snd u) as [q t|p t|q p s t|r y t] eqn:E.
  - destruct (Z.eq_dec (q_id q) id) as [Y|Y]; [left; left; rewrite E; exact Y|].
    right. intros H. inversion H as [v vs V|v vs V]; subst; [rewrite E in V; contradiction|contradiction].
  - right. intros H. inversion H as [v vs V|v vs V]; subst; [rewrite E in V; contradiction|contradiction].
  - right. intros H. inversion H as [v vs V|v vs V]; subst; [rewrite E in V; contradiction|contradiction].
  - right. intros H. inversion H as [v vs V|v vs V]; subst; [rewrite E in V; contradiction|contradiction].
Qed.
Lemma sets_pic_dec : forall id us, sets_pic id us \/ ~ sets_pic id us.
Proof.
  intros id us. induction us as [|u us IH]; [right; intros H; inversion H|].
  destruct IH as [X|X]; [left; right; exact X|].
  destruct (snd u) as [q t|p t|q p s t|r y t] eqn:E.
  2: destruct (Z.eq_dec (i_id p) id) as [Y|Y]; [left; left; rewrite E; exact Y|].
  all: right; intros H; inversion H as [v vs V|v vs V]; subst; [rewrite E in V; contradiction|contradiction].
Qed.

Lemma learn_seq_other : forall us k id, ~ sets_seq id us -> k_seq (fold_left learn us k) id = k_seq k id.
Proof.
  induction us as [|u us IH]; intros k id H; [reflexivity|]. cbn [fold_left]. rewrite IH by (intros X; apply H; right; exact X).
  unfold learn. destruct (snd u) as [q t|p t|q p s t|r y t] eqn:E; cbn [k_seq]; try reflexivity.
  destruct (id =? q_id q) eqn:X; [|reflexivity]. exfalso. apply H. left. rewrite E. lia.
Qed.
Lemma learn_pic_other : forall us k id, ~ sets_pic id us -> k_pic (fold_left learn us k) id = k_pic k id.
Proof.
  induction us as [|u us IH]; intros k id H; [reflexivity|]. cbn [fold_left]. rewrite IH by (intros X; apply H; right; exact X).
  unfold learn. destruct (snd u) as [q t|p t|q p s t|r y t] eqn:E; cbn [k_pic]; try reflexivity.
  destruct (id =? i_id p) eqn:X; [|reflexivity]. exfalso. apply H. left. rewrite E. lia.
Qed.

Lemma ready_act : forall u us ps k, before_ok (snd u) -> ready ps k (u :: us) -> ready (act ps (snd u)) (learn k u) us.
Proof.
  intros u us ps k O (A & B & C). split; [apply act_ok; assumption|]. cbn [fold_left] in *. split.
  - intros id q H. destruct (sets_seq_dec id us) as [X|X]; [left; exact X|right].
    destruct (B id q H) as [Y|Y].
    + inversion Y as [v vs V|v vs V]; subst; [|contradiction].
      rewrite learn_seq_other in H by exact X. unfold learn in H. destruct (snd u) as [q' t|p t|q' p s t|r y t]; try contradiction.
      cbn [act sps_sets k_seq] in *. subst id. rewrite Z.eqb_refl in H. rewrite dget_dput. congruence.
    + rewrite learn_seq_other in H by exact X. unfold learn in H. destruct (snd u) as [q' t|p t|q' p s t|r y t]; cbn [act sps_sets k_seq] in *; try exact Y.
      destruct (Z.eq_dec id (q_id q')) as [Z|Z]; [subst id; rewrite Z.eqb_refl in H; rewrite dget_dput; congruence|].
      rewrite dget_dput_other by exact Z. exact Y.
  - intros id q H. destruct (sets_pic_dec id us) as [X|X]; [left; exact X|right].
    destruct (C id q H) as [Y|Y].
    + inversion Y as [v vs V|v vs V]; subst; [|contradiction].
      rewrite learn_pic_other in H by exact X. unfold learn in H. destruct (snd u) as [q' t|p t|q' p s t|r y t]; try contradiction.
      cbn [act pps_sets k_pic] in *. subst id. rewrite Z.eqb_refl in H. rewrite dget_dput. congruence.
    + rewrite learn_pic_other in H by exact X. unfold learn in H. destruct (snd u) as [q' t|p t|q' p s t|r y t]; cbn [act pps_sets k_pic] in *; try exact Y.
      destruct (Z.eq_dec id (i_id p)) as [Z|Z]; [subst id; rewrite Z.eqb_refl in H; rewrite dget_dput; congruence|].
      rewrite dget_dput_other by exact Z. exact Y.
Qed.

Lemma ready_knows : forall ps k, ready ps k [] -> knows ps k.
Proof.
  intros ps k (A & B & C). cbn [fold_left] in *. split; [exact A|]. split; intros id q H.
  - destruct (B id q H) as [X|X]; [inversion X|exact X].
  - destruct (C id q H) as [X|X]; [inversion X|exact X].
Qed.
Lemma knows_ready : forall ps k us, knows ps k -> ready ps k us.
Proof.
  intros ps k us (A & B & C). split; [exact A|]. split; intros id q H.
  - destruct (sets_seq_dec id us) as [X|X]; [left; exact X|right]. rewrite learn_seq_other in H by exact X. apply B. exact H.
  - destruct (sets_pic_dec id us) as [X|X]; [left; exact X|right]. rewrite learn_pic_other in H by exact X. apply C. exact H.
Qed.

Lemma walk_au : forall full l q p s t us2 after before k ps taken i j bs,
  ready ps k before -> Forall (fun u => before_ok (snd u)) before ->
  let k' := fold_left learn before k in
  slice_known k' q p s -> s_redundant s = 0 -> Forall (fun u => after_ok k' s (snd u)) after -> breaks k' s us2 ->
  sees full (before ++ (l, SliceU q p s t) :: after ++ us2) j bs ->
  let us := before ++ (l, SliceU q p s t) :: after in
  let r := walk ps [] taken (i + Z.of_nat j) bs in
  grown before ps (fst r) /\
  (no_frame full us2 (snd r) \/
   exists u us3, us2 = u :: us3 /\ knows (fst r) k' /\
     snd r = Ok (map header_of (s :: flat_map primary after), taken ++ codes_from i us, Some (i + total us + Z.of_nat (lead u))) /\
     total us + Z.of_nat (lead u) + 3 <= Z.of_nat j + zlen (codes bs)).
Proof.
  intros full l q p s t us2 after. induction before as [|v before IH]; intros k ps taken i j bs R O k' K Z A B S us r.
  - cbn [app] in S. unfold us, r, k' in *. clear us r k'. cbn [fold_left app] in *.
    pose proof (ready_knows _ _ R) as Kn. pose proof (proj1 R) as So.
    inversion S as [us j' E|u us b m F E|u us j' bs' S']; subst; cbn [walk].
    + split; [apply grown_refl; exact So|]. left. right. cbn [snd]. split; [intros X; specialize (E X); discriminate|]. eauto.
    + pose proof (take_slice _ ps k q p s t b Kn K (seen_cut _ (l, SliceU q p s t) b m eq_refl E) []) as T.
      rewrite Z in T. change (0 =? 0) with true in T. cbv iota in T. cbn [app] in T.
      destruct T as [->|[G ->]]; cbn [fst snd]; (split; [apply grown_refl; exact So|]); left; [right; split; [congruence|eauto]|left; auto].
    + pose proof (take_slice full ps k q p s t _ Kn K (seen_unit full (l, SliceU q p s t) j') []) as T.
      rewrite Z in T. change (0 =? 0) with true in T. cbv iota in T. cbn [app snd] in T. cbn [snd].
      destruct T as [->|[G ->]]; cbn [fst snd]; [|split; [apply grown_refl; exact So|]; left; left; auto].
      set (u0 := (l, SliceU q p s t)) in *. change (SliceU q p s t) with (snd u0).
      replace (i + Z.of_nat (lead u0) + 3 + zlen (nal_body (snd u0) ++ zeros j')) with ((i + zlen (unit_bytes u0)) + Z.of_nat j')
        by (rewrite zlen_unit, zlen_app, zlen_zeros; ring).
      destruct (walk_after full k s us2 after ps [] (taken ++ [i + Z.of_nat (lead u0)]) (i + zlen (unit_bytes u0)) j' bs' Kn A B S') as [R1 R2].
      rewrite R1. split; [apply grown_refl; exact So|]. destruct R2 as [R2|(v & us3 & E2 & R2 & R3)]; [left; exact R2|right].
      exists v, us3. split; [exact E2|]. split; [exact Kn|]. rewrite R2. rewrite codes_from_cons, total_cons. split.
      * rewrite <- !app_assoc. cbn [app map]. rewrite Z.add_assoc. reflexivity.
      * cbn [codes flat_map]. fold (codes bs'). rewrite zlen_app, zlen_code, zlen_app, zlen_zeros. rewrite zlen_unit. lia.
  - pose proof (Forall_inv O) as Ov. pose proof (Forall_inv_tail O) as Ot. cbv beta in Ov.
    pose proof (ready_act v before ps k Ov R) as Ra. unfold us, r, k' in *. clear us r k'.
    cbn [fold_left] in *. cbn [app] in S. pose proof (proj1 R) as So.
    inversion S as [us j' E|u us b m F E|u us j' bs' S']; subst; cbn [walk].
    + split; [apply grown_refl; exact So|]. left. right. cbn [snd]. split; [intros X; specialize (E X); discriminate|]. eauto.
    + destruct (take_before _ ps (snd v) b Ov (seen_cut _ _ _ _ eq_refl E)) as [->|[G ->]]; cbn [fst snd].
      * split; [apply grown_cons, grown_refl, act_ok; assumption|]. left. right. split; [congruence|eauto].
      * split; [apply grown_refl; exact So|]. left. left. auto.
    + destruct (take_before full ps (snd v) _ Ov (seen_unit full v j')) as [->|[G ->]]; cbn [fst snd].
      2:{ split; [apply grown_refl; exact So|]. left. left. auto. }
      replace (i + Z.of_nat (lead v) + 3 + zlen (nal_body (snd v) ++ zeros j')) with ((i + zlen (unit_bytes v)) + Z.of_nat j')
        by (rewrite zlen_unit, zlen_app, zlen_zeros; ring).
      destruct (IH (learn k v) (act ps (snd v)) (taken ++ [i + Z.of_nat (lead v)]) (i + zlen (unit_bytes v)) j' bs' Ra Ot K Z A B S') as [R1 R2].
      split; [apply grown_cons; exact R1|]. destruct R2 as [R2|(u & us3 & E2 & Kn & R2 & R3)]; [left; exact R2|right].
      exists u, us3. split; [exact E2|]. split; [exact Kn|]. rewrite R2. cbn [app]. rewrite codes_from_cons, total_cons. split.
      * rewrite <- !app_assoc. cbn [app]. rewrite !Z.add_assoc. reflexivity.
      * cbn [codes flat_map]. fold (codes bs'). rewrite zlen_app, zlen_code, zlen_app, zlen_zeros. rewrite zlen_unit. lia.
Qed.
