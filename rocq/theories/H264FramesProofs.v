(** Proofs that cutting a stream into frames loses nothing. *)
From Coq Require Import Lia ZifyBool ZifyNat.
From Verif Require Import Base BaseProofs PatternTime Wrap WrapSpec WrapProofs H264 H264Spec H264RbspProofs H264TruncProofs.
Ltac Zify.zify_post_hook ::= Z.div_mod_to_equations.

(** ** Places of start codes *)
Lemma findall_code : forall i t, findall 0 0 1 i (0 :: 0 :: 1 :: t) = i :: findall 0 0 1 (i + 3) t.
Proof.
  intros i t. rewrite findall_step. change ((0 =? 0) && (0 =? 0) && (1 =? 1)) with true. cbv iota. cbn [app].
  f_equal.
  rewrite findall_step. destruct t as [|c t].
  - reflexivity.
  - change ((0 =? 0) && (1 =? 0) && (c =? 1)) with false. cbv iota. cbn [app].
    rewrite findall_skip1 by lia. f_equal. ring.
Qed.

(** No code stands across a place before two zeros. *)
Lemma findall_split : forall a i t, findall 0 0 1 i (a ++ 0 :: 0 :: t) = findall 0 0 1 i a ++ findall 0 0 1 (i + zlen a) (0 :: 0 :: t).
Proof.
  induction a as [|x a IH]; intros i t.
  - cbn [app]. change (zlen (@nil Z)) with 0. rewrite Z.add_0_r. reflexivity.
  - cbn [app]. rewrite (findall_step 0 0 1 i x). rewrite IH. rewrite zlen_cons.
    replace (i + (1 + zlen a)) with (i + 1 + zlen a) by ring.
    rewrite (findall_step 0 0 1 i x a). rewrite <- app_assoc. f_equal.
    destruct a as [|y [|z a]]; cbn [app].
    + rewrite andb_false_r. reflexivity.
    + rewrite andb_false_r. reflexivity.
    + reflexivity.
Qed.

Lemma findall_in : forall d i k, In k (findall 0 0 1 i d) -> exists a t, d = a ++ 0 :: 0 :: 1 :: t /\ k = i + zlen a.
Proof.
  induction d as [|x d IH]; intros i k H; [contradiction|].
  rewrite findall_step in H. apply in_app_or in H as [H|H].
  - destruct d as [|y [|z d]]; try contradiction.
    destruct ((x =? 0) && (y =? 0) && (z =? 1)) eqn:E; [|contradiction].
    destruct H as [<-|[]]. exists [], d. cbn [app]. change (zlen (@nil Z)) with 0.
    split; [|lia]. repeat f_equal; lia.
  - destruct (IH _ _ H) as (a & t & -> & ->). exists (x :: a), t. split; [reflexivity|]. rewrite zlen_cons. lia.
Qed.

Lemma findall_rising : forall x y z d i, rising (findall x y z i d).
Proof.
  intros x y z. induction d as [|a d IH]; intros i; [exact I|].
  rewrite findall_step. destruct (match d with b :: c :: _ => _ | _ => _ end) as [|j l] eqn:E; [apply IH|].
  destruct d as [|b [|c d]]; try discriminate.
  destruct ((a =? x) && (b =? y) && (c =? z)); [|discriminate].
  assert (j = i) by congruence. assert (l = []) by congruence. subst. cbn [app rising].
  split; [|apply IH]. eapply Forall_impl; [|apply findall_ge]. cbv beta. lia.
Qed.

Lemma rising_app : forall a x b, rising (a ++ x :: b) -> Forall (fun y => y < x) a /\ Forall (Z.lt x) b.
Proof.
  induction a as [|y a IH]; intros x b H; cbn [app rising] in H.
  - split; [constructor|exact (proj1 H)].
  - destruct H as [H1 H2]. destruct (IH x b H2) as [A B]. split; [|exact B].
    constructor; [|exact A]. apply Forall_app in H1 as [_ H1]. exact (Forall_inv H1).
Qed.

Lemma rising_unique : forall a x b a' b', rising (a ++ x :: b) -> a ++ x :: b = a' ++ x :: b' -> a = a'.
Proof.
  induction a as [|y a IH]; intros x b a' b' R E.
  - destruct a' as [|y' a']; [reflexivity|]. cbn [app] in E.
    assert (x = y') by congruence. assert (B : b = a' ++ x :: b') by congruence. subst y'.
    cbn [app rising] in R. destruct R as [R _]. rewrite B in R. apply Forall_app in R as [_ R].
    pose proof (Forall_inv R). lia.
  - destruct a' as [|y' a'].
    + cbn [app] in E. assert (y = x) by congruence. subst y. cbn [app rising] in R. destruct R as [R _].
      apply Forall_app in R as [_ R]. pose proof (Forall_inv R). lia.
    + cbn [app] in E. assert (y = y') by congruence. subst y'. f_equal.
      cbn [app rising] in R. apply (IH x b a' b'); [exact (proj2 R)|congruence].
Qed.

(** ** The loop over the units *)
Lemma take_unit_first : forall ps nalu r, take_unit ps [] nalu = Ok r -> r <> None.
Proof.
  intros ps nalu r H. unfold take_unit in H. destruct (nal_unit_type nalu) as [t|]; [|discriminate]. cbn [rbind] in H.
  destruct (is_slice t).
  - destruct (on_rbsp nalu (parse_slice_header ps)) as [h|]; [|discriminate]. cbn [rbind] in H.
    destruct (active ps (sh_pps_id h)) as [a|]; [|discriminate]. cbn [rbind] in H.
    destruct (sh_redundant h =? 0); congruence.
  - cbn [negb andb] in H. destruct (t =? 7).
    + destruct (on_rbsp nalu parse_sps) as [s|]; [|discriminate]. cbn [rbind] in H. congruence.
    + destruct (t =? 8); [|congruence]. destruct (on_rbsp nalu parse_pps) as [s|]; [|discriminate]. cbn [rbind] in H. congruence.
Qed.

Lemma take_units_some : forall d next ps hs taken offset ps' hs' taken' o, next <> [] ->
  take_units d ps hs taken offset next = (ps', Ok (hs', taken', Some o)) ->
  exists u w, offset :: removelast next = u ++ o :: w /\ taken' = taken ++ u /\ (hs = [] -> u <> []).
Proof.
  intros d. induction next as [|n next IH]; intros ps hs taken offset ps' hs' taken' o Hn H; [contradiction|].
  cbn [take_units] in H. destruct (take_unit ps hs (slice d offset n)) as [[[ps1 hs1]|]|e] eqn:E.
  - destruct next as [|n2 next]; [cbn [take_units] in H; congruence|].
    destruct (IH ps1 hs1 (taken ++ [offset]) n ps' hs' taken' o ltac:(discriminate) H) as (u & w & E1 & E2 & E3).
    exists (offset :: u), w. split; [|split].
    + change (removelast (n :: n2 :: next)) with (n :: removelast (n2 :: next)). rewrite E1. reflexivity.
    + rewrite E2, <- app_assoc. reflexivity.
    + intros _. discriminate.
  - assert (o = offset) by congruence. assert (taken' = taken) by congruence. subst.
    exists [], (removelast (n :: next)). split; [reflexivity|]. split; [rewrite app_nil_r; reflexivity|].
    intros ->. exfalso. apply (take_unit_first _ _ _ E). reflexivity.
  - congruence.
Qed.

(** A frame ends where the next one begins, and its offsets are those of its start codes. *)
Lemma parse_frame_some : forall ps d ps' n offs info, parse_frame ps d = (ps', Ok (Some (n, offs, info))) ->
  0 < n <= zlen d /\ offs = findall 0 0 1 0 (zfirst n d) /\ offs <> [].
Proof.
  intros ps d ps' n offs info H. unfold parse_frame in H.
  destruct (findall 0 0 1 0 d) as [|off next] eqn:Ef; [discriminate|].
  destruct (take_units d ps [] [] off (next ++ [zlen d])) as [ps1 [[[hs taken] [o|]]|e]] eqn:Et.
  2: discriminate.
  2: destruct e; discriminate.
  assert (X : exists i, extract_frame_info ps1 hs = Ok i).
  { destruct (extract_frame_info ps1 hs) as [i|e]; [exists i; reflexivity|]. destruct e; discriminate. }
  destruct X as [i X]. rewrite X in H. clear X.
  apply take_units_some in Et as (u & w & E1 & E2 & E3); [|destruct next; discriminate].
  rewrite removelast_last in E1. cbn [app] in E2. specialize (E3 eq_refl).
  assert (Eo' : offs = taken) by congruence. subst offs. subst u.
  set (m := if (0 <? o) && (nth (Z.to_nat (o - 1)) d 0 =? 0) then o - 1 else o) in *.
  assert (n = m) by congruence. subst n. clear H.
  assert (R : rising (findall 0 0 1 0 d)) by apply findall_rising. rewrite Ef, E1 in R.
  assert (I : In o (findall 0 0 1 0 d)) by (rewrite Ef, E1; apply in_or_app; right; left; reflexivity).
  destruct (findall_in d 0 o I) as (a & t & Ed & Eo). cbn [Z.add] in Eo.
  pose proof (zlen_nonneg a) as La. pose proof (zlen_nonneg t) as Lt.
  assert (Oa : o = zlen a) by lia.
  (* the cut is before two zeros *)
  assert (C : exists b s, d = b ++ 0 :: 0 :: s /\ m = zlen b /\ exists rest, findall 0 0 1 (zlen b) (0 :: 0 :: s) = o :: rest).
  { unfold m. destruct ((0 <? o) && (nth (Z.to_nat (o - 1)) d 0 =? 0)) eqn:Z.
    - apply andb_prop in Z as [Z1 Z2]. apply Z.eqb_eq in Z2.
      destruct (rev a) as [|x ra] eqn:Er.
      + assert (a = []) by (rewrite <- (rev_involutive a), Er; reflexivity). subst a. change (zlen (@nil Z)) with 0 in Oa. lia.
      + assert (Ea : a = rev ra ++ [x]) by (rewrite <- (rev_involutive a), Er; reflexivity).
        assert (Lb : zlen (rev ra) = o - 1) by (rewrite Oa, Ea, zlen_app; change (zlen [x]) with 1; lia).
        assert (x = 0).
        { rewrite <- Z2, Ed, Ea, <- app_assoc. cbn [app]. replace (Z.to_nat (o - 1)) with (length (rev ra)) by (unfold zlen in Lb; lia).
          symmetry. apply nth_app_mid. }
        subst x. exists (rev ra), (0 :: 1 :: t). split; [|split; [lia|]].
        * rewrite Ed, Ea, <- app_assoc. reflexivity.
        * eexists. rewrite findall_step. change ((0 =? 0) && (0 =? 0) && (0 =? 1)) with false. cbn [app].
          rewrite findall_code. rewrite Lb. replace (o - 1 + 1) with o by lia. reflexivity.
    - exists a, (1 :: t). split; [exact Ed|]. split; [exact Oa|]. eexists. rewrite findall_code. rewrite Oa. reflexivity. }
  destruct C as (b & s & Db & Mb & rest & Fb).
  assert (Offs : taken = findall 0 0 1 0 b).
  { apply (rising_unique taken o w (findall 0 0 1 0 b) rest).
    - exact R.
    - rewrite <- E1, <- Ef. rewrite Db, findall_split. rewrite Z.add_0_l, Fb. reflexivity. }
  assert (Zb : zfirst m d = b) by (rewrite Mb, Db; apply zfirst_app).
  rewrite Zb. split; [|split; [exact Offs|exact E3]].
  pose proof (zlen_nonneg b) as Lb. split.
  - destruct b as [|x b]; [exfalso; apply E3; rewrite Offs; reflexivity|]. rewrite Mb, zlen_cons. pose proof (zlen_nonneg b). lia.
  - rewrite Mb, Db, zlen_app. pose proof (zlen_nonneg (0 :: 0 :: s)). lia.
Qed.

(** ** No exception stands for a missing round *)
Lemma on_rbsp_fueled : forall A nalu (p : parser A), fueled p -> on_rbsp nalu p <> Err EFuel.
Proof.
  intros A nalu p F. unfold on_rbsp.
  assert (R : rbsp nalu <> Err EFuel).
  { unfold rbsp. destruct (start_code nalu) as [n|e] eqn:E; cbn [rbind].
    - destruct (findall 0 0 3 0 nalu); discriminate.
    - unfold start_code in E. repeat match type of E with match ?x with _ => _ end = _ => destruct x end; congruence. }
  destruct (rbsp nalu) as [d|e]; cbn [rbind]; [|congruence].
  pose proof (F (to_bits d)) as Fd. destruct (p (to_bits d)) as [[v t]|e]; cbn [rbind]; [discriminate|congruence].
Qed.

Lemma nal_unit_type_fueled : forall nalu, nal_unit_type nalu <> Err EFuel.
Proof.
  intros nalu. unfold nal_unit_type. destruct (start_code nalu) as [n|e] eqn:E; cbn [rbind].
  - destruct (zskip n nalu); discriminate.
  - unfold start_code in E. repeat match type of E with match ?x with _ => _ end = _ => destruct x end; congruence.
Qed.

Lemma active_fueled : forall ps id, active ps id <> Err EFuel.
Proof. intros ps id H. apply active_err in H. discriminate. Qed.

Lemma take_unit_fueled : forall ps hs nalu, take_unit ps hs nalu <> Err EFuel.
Proof.
  intros ps hs nalu. unfold take_unit.
  pose proof (nal_unit_type_fueled nalu) as N. destruct (nal_unit_type nalu) as [t|e]; cbn [rbind]; [|congruence].
  destruct (is_slice t).
  - pose proof (on_rbsp_fueled _ nalu _ (fueled_slice ps)) as S.
    destruct (on_rbsp nalu (parse_slice_header ps)) as [h|e]; cbn [rbind]; [|congruence].
    pose proof (active_fueled ps (sh_pps_id h)) as A. destruct (active ps (sh_pps_id h)) as [a|e]; cbn [rbind]; [|congruence].
    destruct (sh_redundant h =? 0); [|discriminate]. destruct hs as [|f hs]; [discriminate|]. destruct (other_picture (snd a) h f); discriminate.
  - destruct (negb _ && starts_picture t); [discriminate|]. destruct (t =? 7).
    + pose proof (on_rbsp_fueled _ nalu _ (proj1 tame_sps)) as S. destruct (on_rbsp nalu parse_sps); cbn [rbind]; [discriminate|congruence].
    + destruct (t =? 8); [|discriminate].
      pose proof (on_rbsp_fueled _ nalu _ (proj1 tame_pps)) as S. destruct (on_rbsp nalu parse_pps); cbn [rbind]; [discriminate|congruence].
Qed.

Lemma take_units_fueled : forall d next ps hs taken offset, snd (take_units d ps hs taken offset next) <> Err EFuel.
Proof.
  intros d. induction next as [|n next IH]; intros ps hs taken offset; cbn [take_units]; [discriminate|].
  pose proof (take_unit_fueled ps hs (slice d offset n)) as T.
  destruct (take_unit ps hs (slice d offset n)) as [[[ps1 hs1]|]|e]; [apply IH|discriminate|cbn [snd]; congruence].
Qed.

Lemma extract_fueled : forall ps hs, extract_frame_info ps hs <> Err EFuel.
Proof.
  intros ps hs. unfold extract_frame_info. destruct hs as [|h hs]; [discriminate|].
  destruct (active ps (sh_pps_id h)) as [[p s]|e]; [|discriminate]. cbv zeta.
  unfold sample_aspect. destruct (aspect_ratio_idc s =? 255).
  - destruct (sar_height s =? 0); cbn [rbind]; [discriminate|].
    destruct (negb (timing_info_present_flag s =? 0)); [|discriminate]. destruct ((time_scale s =? 0) || (num_units_in_tick s =? 0)); discriminate.
  - destruct (nth_error aspect_ratios (Z.to_nat (aspect_ratio_idc s))) as [[n m]|]; cbn [rbind];
    (destruct (negb (timing_info_present_flag s =? 0)); [|discriminate]; destruct ((time_scale s =? 0) || (num_units_in_tick s =? 0)); discriminate).
Qed.

Lemma parse_frame_fueled : forall ps d, snd (parse_frame ps d) <> Err EFuel.
Proof.
  intros ps d. unfold parse_frame. destruct (findall 0 0 1 0 d) as [|off next]; [discriminate|].
  pose proof (take_units_fueled d (next ++ [zlen d]) ps [] [] off) as T.
  destruct (take_units d ps [] [] off (next ++ [zlen d])) as [ps1 [[[hs taken] [o|]]|e]]; cbn [snd] in *.
  - pose proof (extract_fueled ps1 hs) as X. destruct (extract_frame_info ps1 hs) as [i|e]; cbn [snd]; [discriminate|].
    destruct e; cbn [snd]; congruence.
  - discriminate.
  - destruct e; cbn [snd]; congruence.
Qed.

Lemma info_units_fueled : forall d next ps hs offset, snd (info_units d ps hs offset next) <> Err EFuel.
Proof.
  intros d. induction next as [|n next IH]; intros ps hs offset; cbn [info_units]; [discriminate|].
  pose proof (nal_unit_type_fueled (slice d offset n)) as N. destruct (nal_unit_type (slice d offset n)) as [t|e]; [|cbn [snd]; congruence].
  destruct (is_slice t).
  - pose proof (on_rbsp_fueled _ (slice d offset n) _ (fueled_slice ps)) as S.
    destruct (on_rbsp (slice d offset n) (parse_slice_header ps)) as [h|e]; [|cbn [snd]; congruence].
    destruct (negb (sh_redundant h =? 0)); [discriminate|apply IH].
  - destruct (t <=? 5); [discriminate|]. destruct (t =? 7).
    + pose proof (on_rbsp_fueled _ (slice d offset n) _ (proj1 tame_sps)) as S.
      destruct (on_rbsp (slice d offset n) parse_sps); [apply IH|cbn [snd]; congruence].
    + destruct (t =? 8); [|apply IH].
      pose proof (on_rbsp_fueled _ (slice d offset n) _ (proj1 tame_pps)) as S.
      destruct (on_rbsp (slice d offset n) parse_pps); [apply IH|cbn [snd]; congruence].
Qed.

Lemma last_frame_spec : forall ps buffer fs e, last_frame ps buffer = (fs, e) ->
  e <> Some EFuel /\ Forall (fun f => snd (fst f) = findall 0 0 1 0 (fst (fst f)) /\ snd (fst f) <> []) fs /\
  exists rest, concat (map (fun f => fst (fst f)) fs) ++ rest = buffer /\ (e = None -> findall 0 0 1 0 rest = []).
Proof.
  intros ps buffer fs e H. unfold last_frame in H.
  destruct (0 <? zlen buffer) eqn:L.
  2:{ assert (fs = []) by congruence. assert (e = None) by congruence. subst. split; [discriminate|]. split; [constructor|].
      exists buffer. split; [reflexivity|]. intros _. destruct buffer; [reflexivity|]. rewrite zlen_cons in L. pose proof (zlen_nonneg buffer). lia. }
  destruct (findall 0 0 1 0 buffer) as [|o os] eqn:F.
  - assert (fs = []) by congruence. assert (e = None) by congruence. subst. split; [discriminate|]. split; [constructor|].
    exists buffer. split; [reflexivity|]. intros _. exact F.
  - destruct (parse_frame_info ps buffer (o :: os)) as [ps1 [i|x]] eqn:P.
    + assert (fs = [(buffer, o :: os, i)]) by congruence. assert (e = None) by congruence. subst. split; [discriminate|].
      split; [constructor; [|constructor]; cbn [fst snd]; split; [congruence|discriminate]|].
      exists []. cbn [map fst concat]. rewrite !app_nil_r. split; [reflexivity|]. intros _. reflexivity.
    + assert (fs = []) by congruence. assert (e = Some x) by congruence. subst. split; [|split; [constructor|]].
      * intros E. assert (x = EFuel) by congruence. subst x. unfold parse_frame_info in P.
        pose proof (info_units_fueled buffer (os ++ [zlen buffer]) ps [] o) as Q.
        destruct (info_units buffer ps [] o (os ++ [zlen buffer])) as [ps2 [hs|y]]; cbn [snd] in Q; [|congruence].
        apply (extract_fueled ps2 hs). congruence.
      * exists buffer. split; [reflexivity|discriminate].
Qed.

(** ** Conservation *)
Lemma read_size_nonneg : forall start prev buffer, 0 <= read_size start prev buffer.
Proof.
  intros start prev buffer. unfold read_size, READ_BLOCK_SIZE. destruct start; [|lia].
  destruct prev as [p|]; [|destruct (zlen buffer =? 0); lia]. destruct (zlen buffer <? p) eqn:E; lia.
Qed.

Lemma frames_conserve : forall fuel src ps buffer prev (start : bool) fs e, fragments_ok src ->
  3 * zlen (concat src) + 2 * zlen buffer + (if start then 1 else 0) < Z.of_nat fuel ->
  h264_frames src_read src ps buffer prev start fuel = (fs, e) ->
  e <> Some EFuel /\ Forall (fun f => snd (fst f) = findall 0 0 1 0 (fst (fst f)) /\ snd (fst f) <> []) fs /\
  exists rest, concat (map (fun f => fst (fst f)) fs) ++ rest = buffer ++ concat src /\ (e = None -> findall 0 0 1 0 rest = []).
Proof.
  induction fuel as [|fuel IH]; intros src ps buffer prev start fs e Fr Hm H.
  { pose proof (zlen_nonneg (concat src)). pose proof (zlen_nonneg buffer). destruct start; lia. }
  cbn [h264_frames] in H.
  pose proof (read_size_nonneg start prev buffer) as Hs.
  set (size := read_size start prev buffer) in *.
  assert (X : exists src' data, (if 0 <? size then src_read size src else (src, Ok [])) = (src', Ok data) /\
    concat src = data ++ concat src' /\ fragments_ok src' /\ (0 < size -> zlen data = 0 -> src = [])).
  { destruct (0 <? size) eqn:S.
    - destruct (src_read_spec size src ltac:(lia) Fr) as (src' & b & E & Ec & Fr' & _ & Z & _).
      exists src', b. split; [exact E|]. split; [exact Ec|]. split; [exact Fr'|]. intros _ Zb. destruct (Z Zb); [lia|assumption].
    - exists src, []. split; [reflexivity|]. split; [reflexivity|]. split; [exact Fr|]. lia. }
  destruct X as (src' & data & E & Ec & Fr' & Zd). rewrite E in H. clear E.
  pose proof (zlen_nonneg data) as Ld.
  assert (Lc : zlen (concat src) = zlen data + zlen (concat src')) by (rewrite Ec, zlen_app; reflexivity).
  destruct (parse_frame ps (buffer ++ data)) as [ps' [[[[n offs] info]|]|x]] eqn:P.
  - apply parse_frame_some in P as (Hn & Ho & Hne).
    replace (0 <? n) with true in H by lia.
    destruct (h264_frames src_read src' ps' (zskip n (buffer ++ data)) (Some n) true fuel) as [fs' e'] eqn:R.
    assert (fs = (zfirst n (buffer ++ data), offs, info) :: fs') by congruence. assert (e = e') by congruence. subst fs e'. clear H.
    apply IH in R as (R1 & R2 & rest & R3 & R4); [|exact Fr'|rewrite zlen_zskip by lia; rewrite zlen_app in *; destruct start; lia].
    split; [exact R1|]. split; [constructor; [cbn [fst snd]; split; assumption|exact R2]|].
    exists rest. split; [|exact R4]. cbn [map fst concat]. rewrite <- app_assoc, R3, app_assoc, zfirst_zskip, Ec, app_assoc. reflexivity.
  - destruct ((0 <? size) && (zlen data =? 0)) eqn:D.
    + apply last_frame_spec in H as (R1 & R2 & rest & R3 & R4). split; [exact R1|]. split; [exact R2|].
      exists rest. split; [|exact R4]. rewrite R3, Ec, app_assoc.
      assert (src = []) by (apply Zd; lia). subst src. cbn [concat] in Ec. symmetry in Ec. apply app_eq_nil in Ec as [_ ->].
      rewrite app_nil_r. reflexivity.
    + apply IH in H as (R1 & R2 & rest & R3 & R4); [|exact Fr'|].
      * split; [exact R1|]. split; [exact R2|]. exists rest. split; [|exact R4]. rewrite R3, Ec, app_assoc. reflexivity.
      * rewrite zlen_app. pose proof (zlen_nonneg buffer). destruct start; [lia|].
        assert (size = READ_BLOCK_SIZE) by reflexivity. unfold READ_BLOCK_SIZE in *. lia.
  - assert (fs = []) by congruence. assert (e = Some x) by congruence. subst.
    split; [|split; [constructor|]].
    + intros E. pose proof (parse_frame_fueled ps (buffer ++ data)) as Q. rewrite P in Q. cbn [snd] in Q. congruence.
    + exists (buffer ++ concat src). split; [reflexivity|discriminate].
Qed.

(** A pipe never reports its end by an empty read. *)
Lemma pipe_read_nonempty : forall n src pos p b, 0 < n -> fragments_ok src -> pipe_read n (mkPipe src pos) = (p, Ok b) ->
  zlen b = n /\ fragments_ok (p_src p).
Proof.
  intros n src pos p b Hn Fr H. destruct (Z.le_gt_cases n (zlen (concat src))) as [L|L].
  - destruct (pipe_read_ok n src pos) as (src' & E & _ & Fr' & _); [lia|exact Fr|].
    rewrite E in H. assert (b = zfirst n (concat src)) by congruence. assert (p = mkPipe src' (pos + n)) by congruence. subst.
    split; [rewrite zlen_zfirst by lia; lia|exact Fr'].
  - rewrite pipe_read_short in H by assumption. discriminate.
Qed.

Lemma frames_pipe : forall fuel src pos ps buffer prev start, fragments_ok src ->
  snd (h264_frames pipe_read (mkPipe src pos) ps buffer prev start fuel) <> None.
Proof.
  induction fuel as [|fuel IH]; intros src pos ps buffer prev start Fr; cbn [h264_frames]; [discriminate|].
  set (size := read_size start prev buffer).
  destruct (if 0 <? size then pipe_read size (mkPipe src pos) else (mkPipe src pos, Ok [])) as [p [data|x]] eqn:E; [|discriminate].
  assert (X : (0 < size -> zlen data <> 0) /\ fragments_ok (p_src p)).
  { destruct (0 <? size) eqn:S.
    - apply pipe_read_nonempty in E as [E1 E2]; [|lia|exact Fr]. split; [lia|exact E2].
    - assert (p = mkPipe src pos) by congruence. subst p. split; [lia|exact Fr]. }
  destruct X as [X Fr']. destruct p as [src' pos'].
  destruct (parse_frame ps (buffer ++ data)) as [ps' [[[[n offs] info]|]|x]].
  - destruct (0 <? n).
    + specialize (IH src' pos' ps' (zskip n (buffer ++ data)) (Some n) true Fr').
      destruct (h264_frames pipe_read (mkPipe src' pos') ps' (zskip n (buffer ++ data)) (Some n) true fuel). exact IH.
    + apply IH. exact Fr'.
  - destruct ((0 <? size) && (zlen data =? 0)) eqn:D; [exfalso; lia|]. apply IH. exact Fr'.
  - discriminate.
Qed.
