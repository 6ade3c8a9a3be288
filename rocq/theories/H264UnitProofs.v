(** Proofs about single units: what the loop does with a whole unit and with the beginning of one. *)
From Coq Require Import Lia ZifyBool ZifyNat.
From Verif Require Import Base BaseProofs PatternTime Wrap H264 H264Spec H264StreamSpec H264BitsProofs H264SetsProofs H264RbspProofs H264TruncProofs
  H264FramesProofs.
Ltac Zify.zify_post_hook ::= Z.div_mod_to_equations.

(** ** Packing *)
Lemma byte_bits_put : forall v, byte_bits v = put 8 v.
Proof. reflexivity. Qed.

Lemma byte_bits_value : forall l, length l = 8%nat -> byte_bits (bits_value l) = l.
Proof. intros l H. rewrite byte_bits_put, <- H. apply put_bits_value. lia. Qed.

Lemma bits_value_nonneg : forall l, 0 <= bits_value l.
Proof. intros l. pose proof (bits_value_bound l 0 ltac:(lia)). unfold bits_value. lia. Qed.

Lemma to_bits_app : forall a b, to_bits (a ++ b) = to_bits a ++ to_bits b.
Proof. intros a b. apply flat_map_app. Qed.

Lemma firstn_repeat : forall A (x : A) n j, (j <= n)%nat -> firstn j (repeat x n) = repeat x j.
Proof.
  intros A x. induction n as [|n IH]; intros j H; destruct j as [|j]; try reflexivity; [lia|].
  cbn [repeat firstn]. rewrite IH by lia. reflexivity.
Qed.

Lemma to_bits_pack : forall n b, (length b <= n)%nat -> exists k, to_bits (pack n b) = b ++ repeat false k.
Proof.
  induction n as [|n IH]; intros b H.
  - destruct b; [|cbn [length] in H; lia]. exists O. reflexivity.
  - destruct b as [|x b]; [exists O; reflexivity|].
    cbn [pack]. set (c := x :: b) in *.
    assert (Lc : (1 <= length c)%nat) by (unfold c; cbn [length]; lia).
    destruct (IH (skipn 8 c)) as [k E]; [rewrite skipn_length; lia|].
    unfold to_bits in *. cbn [flat_map]. rewrite E. clear E.
    rewrite byte_bits_value by (rewrite firstn_length, app_length, repeat_length; lia).
    destruct (Nat.le_gt_cases 8 (length c)) as [L|L].
    + exists k. rewrite firstn_app. replace (8 - length c)%nat with O by lia. rewrite firstn_O, app_nil_r, app_assoc, firstn_skipn. reflexivity.
    + rewrite firstn_app, firstn_all2 by lia. rewrite skipn_all2 by lia. cbn [app]. rewrite <- app_assoc.
      exists ((8 - length c) + k)%nat. f_equal. rewrite repeat_app. f_equal.
      apply firstn_repeat. lia.
Qed.

Lemma to_bits_rbsp : forall b, exists t, to_bits (rbsp_of b) = b ++ t.
Proof.
  intros b. destruct (to_bits_pack (S (length b)) (b ++ [true])) as [k E]; [rewrite app_length; cbn [length]; lia|].
  exists ([true] ++ repeat false k). unfold rbsp_of. rewrite E, <- app_assoc. reflexivity.
Qed.

Lemma pack_nonneg : forall n b, Forall (Z.le 0) (pack n b).
Proof.
  induction n as [|n IH]; intros b; [constructor|]. cbn [pack]. destruct b as [|x b]; [constructor|].
  constructor; [apply bits_value_nonneg|apply IH].
Qed.

Lemma pack_last : forall n b, (length b < n)%nat -> exists p x, pack n (b ++ [true]) = p ++ [x] /\ x <> 0.
Proof.
  induction n as [|n IH]; intros b H; [lia|]. cbn [pack].
  destruct (b ++ [true]) as [|y c] eqn:E; [destruct b; discriminate|]. rewrite <- E. clear E y c.
  destruct (Nat.le_gt_cases 8 (length b)) as [L|L].
  - rewrite (skipn_app 8 b). replace (8 - length b)%nat with O by lia. change (skipn 0 [true]) with [true].
    destruct (IH (skipn 8 b)) as (p & x & -> & Hx); [rewrite skipn_length; lia|].
    eexists (_ :: p), x. split; [reflexivity|exact Hx].
  - rewrite skipn_all2 by (rewrite app_length; cbn [length]; lia).
    set (l := firstn 8 ((b ++ [true]) ++ repeat false 7)).
    exists [], (bits_value l). split; [destruct n; reflexivity|].
    intros Z. assert (Hl : length l = 8%nat) by (unfold l; rewrite firstn_length, !app_length, repeat_length; cbn [length]; lia).
    pose proof (byte_bits_value l Hl) as B. rewrite Z in B.
    assert (I : In true l).
    { unfold l. rewrite firstn_app, firstn_all2 by (rewrite app_length; cbn [length]; lia).
      apply in_or_app. left. apply in_or_app. right. left. reflexivity. }
    rewrite <- B in I. change (byte_bits 0) with (repeat false 8) in I. apply repeat_spec in I. discriminate.
Qed.

Lemma rbsp_last : forall b, exists p x, rbsp_of b = p ++ [x] /\ x <> 0.
Proof. intros b. apply pack_last. lia. Qed.

Lemma escape_last : forall p x k, exists e, escape k (p ++ [x]) = e ++ [x].
Proof.
  induction p as [|y p IH]; intros x k; cbn [app escape].
  - destruct ((k =? 2) && (x <=? 3)); [exists [3]|exists []]; reflexivity.
  - destruct ((k =? 2) && (y <=? 3)).
    + destruct (IH x (if y =? 0 then 1 else 0)) as [e ->]. exists (3 :: y :: e). reflexivity.
    + destruct (IH x (if y =? 0 then k + 1 else 0)) as [e ->]. exists (y :: e). reflexivity.
Qed.

Lemma body_last : forall n, exists e x, nal_body n = e ++ [x] /\ x <> 0.
Proof.
  intros n. unfold nal_body. destruct (words_of n) as [|w].
  - change (zeros (2 * 0)) with (@nil Z). rewrite !app_nil_r. destruct (rbsp_last (nal_bits n)) as (p & x & -> & Hx).
    destruct (escape_last p x 0) as [e ->]. exists e, x. split; [reflexivity|exact Hx].
  - eexists. exists 3. split; [reflexivity|lia].
Qed.

(** ** No start code in a body *)
Lemma findall_stands : forall d i, (forall j, ~ stands_at 0 0 1 d j) -> findall 0 0 1 i d = [].
Proof.
  intros d i H. destruct (findall 0 0 1 i d) as [|k l] eqn:E; [reflexivity|]. exfalso.
  destruct (findall_in d i k) as (a & t & -> & _); [rewrite E; left; reflexivity|].
  apply (H (length a)). unfold stands_at.
  rewrite !nth_error_app2 by lia. replace (length a - length a)%nat with O by lia.
  replace (S (length a) - length a)%nat with 1%nat by lia. replace (S (S (length a)) - length a)%nat with 2%nat by lia.
  repeat split.
Qed.

Lemma body_stands : forall n j, ~ stands_at 0 0 1 (nal_body n) j.
Proof.
  intros n j (A & B & C). unfold nal_body in *. set (p := rbsp_of (nal_bits n) ++ zeros (2 * words_of n)) in *.
  assert (P : Forall (Z.le 0) p).
  { apply Forall_app. split; [apply pack_nonneg|]. apply Forall_forall. intros x H. apply repeat_spec in H. lia. }
  assert (K : (S (S j) < length (escape 0 p))%nat).
  { destruct (Nat.lt_ge_cases (S (S j)) (length (escape 0 p))) as [L|L]; [exact L|]. rewrite nth_error_app2 in C by lia.
    destruct (words_of n) as [|w]; [destruct (S (S j) - length (escape 0 p))%nat; discriminate C|].
    destruct (S (S j) - length (escape 0 p))%nat as [|[|k]]; discriminate C. }
  rewrite nth_error_app1 in A, B, C by lia. apply (escape_stands p j 1 P ltac:(lia)). repeat split; assumption.
Qed.

Lemma body_code : forall n i, findall 0 0 1 i (nal_body n) = [].
Proof.
  intros n i. apply findall_stands. apply body_stands.
Qed.

Lemma findall_zeros : forall m i, findall 0 0 1 i (zeros m) = [].
Proof.
  induction m as [|m IH]; intros i; [reflexivity|]. change (zeros (S m)) with (0 :: zeros m).
  rewrite findall_step, IH, app_nil_r. destruct m as [|[|m]]; reflexivity.
Qed.

Lemma findall_body : forall n i m, findall 0 0 1 i (nal_body n ++ zeros m) = [].
Proof.
  intros n i m. destruct m as [|[|m]].
  - rewrite app_nil_r. apply body_code.
  - change (zeros 1) with [0]. destruct (body_last n) as (e & x & E & Hx). pose proof (body_code n) as B. rewrite E in *.
    clear n E. rewrite <- app_assoc. cbn [app]. revert i. induction e as [|y e IH]; intros i.
    + reflexivity.
    + cbn [app] in *. rewrite findall_step. rewrite IH.
      * rewrite app_nil_r. specialize (B i). rewrite findall_step in B. apply app_eq_nil in B as [B _].
        destruct e as [|z [|w e]]; cbn [app] in *; [rewrite andb_false_r; reflexivity|exact B|exact B].
      * intros j. specialize (B (j - 1)). rewrite findall_step in B. apply app_eq_nil in B as [_ B].
        replace (j - 1 + 1) with j in B by lia. exact B.
  - change (zeros (S (S m))) with (0 :: 0 :: zeros m). rewrite findall_split, body_code. cbn [app].
    change (0 :: 0 :: zeros m) with (zeros (S (S m))). apply findall_zeros.
Qed.

Lemma findall_cut : forall n e m i, nal_body n = e ++ m -> findall 0 0 1 i e = [].
Proof.
  intros n e m i E. apply findall_stands. intros j (A & B & C).
  apply (body_stands n j). rewrite E. unfold stands_at.
  rewrite !nth_error_app1; [repeat split; assumption|..]; apply nth_error_Some; congruence.
Qed.

(** ** The first byte *)
Definition headed (n : nal) : Prop := below 4 (ref_of n) /\ below 32 (type_of n).

Lemma nal_bits_head : forall n, exists t, nal_bits n = write [U 1 0; U 2 (ref_of n); U 5 (type_of n)] ++ t.
Proof.
  intros [q t|p t|q p s t|r k t]; cbn [nal_bits ref_of type_of].
  - unfold seq_syntax. change ([U 1 0; U 2 (q_ref q); U 5 7; U 8 (q_profile q); U 8 (q_flags q); U 8 (q_level q); UE (q_id q)])
      with ([U 1 0; U 2 (q_ref q); U 5 7] ++ [U 8 (q_profile q); U 8 (q_flags q); U 8 (q_level q); UE (q_id q)]).
    rewrite <- app_assoc, write_app, <- app_assoc. eexists. reflexivity.
  - unfold pic_syntax. change ([U 1 0; U 2 (i_ref p); U 5 8; UE (i_id p); UE (i_seq p); F (i_entropy p); F (i_bottom p)])
      with ([U 1 0; U 2 (i_ref p); U 5 8] ++ [UE (i_id p); UE (i_seq p); F (i_entropy p); F (i_bottom p)]).
    rewrite <- app_assoc, write_app, <- app_assoc. eexists. reflexivity.
  - unfold slice_syntax. change ([U 1 0; U 2 (s_ref s); U 5 (s_unit s); UE (s_first s); UE (s_type s); UE (s_pic s)])
      with ([U 1 0; U 2 (s_ref s); U 5 (s_unit s)] ++ [UE (s_first s); UE (s_type s); UE (s_pic s)]).
    rewrite <- app_assoc, write_app, <- app_assoc. eexists. reflexivity.
  - eexists. reflexivity.
Qed.

Lemma head_length : forall r t, length (write [U 1 0; U 2 r; U 5 t]) = 8%nat.
Proof. reflexivity. Qed.

Lemma head_value : forall r t, below 4 r -> below 32 t -> bits_value (write [U 1 0; U 2 r; U 5 t]) = 32 * r + t.
Proof.
  intros r t Hr Ht. unfold below in *. change (write [U 1 0; U 2 r; U 5 t]) with (put 1 0 ++ put 2 r ++ put 5 t ++ []).
  rewrite app_nil_r. unfold bits_value. rewrite !bits_value_app, !put_value by lia.
  change (2 ^ Z.of_nat 1) with 2. change (2 ^ Z.of_nat 2) with 4. change (2 ^ Z.of_nat 5) with 32.
  rewrite (Z.mod_small r), (Z.mod_small t) by lia. change (0 mod 2) with 0. lia.
Qed.

Lemma body_head : forall n, headed n -> exists e, nal_body n = 32 * ref_of n + type_of n :: e.
Proof.
  intros n [Hr Ht]. destruct (nal_bits_head n) as [t E]. unfold nal_body, rbsp_of. rewrite E.
  set (h := write [U 1 0; U 2 (ref_of n); U 5 (type_of n)]). pose proof (head_length (ref_of n) (type_of n)) as Lh. fold h in Lh.
  cbn [pack]. destruct ((h ++ t) ++ [true]) as [|x l] eqn:X; [destruct (h ++ t); discriminate|]. rewrite <- X. clear X x l.
  rewrite <- !app_assoc. rewrite firstn_app, Lh. change (8 - 8)%nat with O. rewrite firstn_O, app_nil_r, firstn_all2 by lia.
  unfold h at 1. rewrite head_value by assumption. cbn [escape]. change (0 =? 2) with false. cbn [andb]. eexists. reflexivity.
Qed.

Lemma land_31 : forall r t, below 32 t -> Z.land (32 * r + t) 31 = t.
Proof.
  intros r t H. unfold below in H. change 31 with (Z.ones 5). rewrite Z.land_ones by lia. change (2 ^ 5) with 32.
  rewrite Z.mul_comm, Z.add_comm, Z.mod_add by lia. apply Z.mod_small. lia.
Qed.

Lemma unit_type : forall h e, nal_unit_type (0 :: 0 :: 1 :: h :: e) = Ok (Z.land h 31).
Proof. reflexivity. Qed.
Lemma unit_short : nal_unit_type [0; 0; 1] = Err ERead.
Proof. reflexivity. Qed.

Lemma type_full : forall n m, headed n -> nal_unit_type (0 :: 0 :: 1 :: nal_body n ++ zeros m) = Ok (type_of n).
Proof.
  intros n m H. destruct (body_head n H) as [e ->]. cbn [app]. rewrite unit_type, land_31 by exact (proj2 H). reflexivity.
Qed.
Lemma type_cut : forall n e m, headed n -> nal_body n = e ++ m ->
  nal_unit_type (0 :: 0 :: 1 :: e) = Ok (type_of n) \/ nal_unit_type (0 :: 0 :: 1 :: e) = Err ERead.
Proof.
  intros n e m H E. destruct (body_head n H) as [f Hf]. rewrite Hf in E. destruct e as [|h e]; [right; reflexivity|left].
  cbn [app] in E. assert (h = 32 * ref_of n + type_of n) by congruence. subst h.
  rewrite unit_type, land_31 by exact (proj2 H). reflexivity.
Qed.

(** ** Payloads *)
Lemma strip_zeros : forall m k, strip k (zeros m) = zeros m.
Proof.
  induction m as [|m IH]; intros k; [reflexivity|]. change (zeros (S m)) with (0 :: zeros m). cbn [strip].
  change (0 =? 3) with false. rewrite andb_false_r, IH. reflexivity.
Qed.

Lemma strip_body : forall n t, exists k, strip 0 (nal_body n ++ t) = rbsp_of (nal_bits n) ++ zeros (2 * words_of n) ++ strip k t.
Proof.
  intros n t. unfold nal_body. rewrite <- app_assoc, strip_escape by lia.
  destruct (words_of n) as [|w].
  - cbn [app]. eexists. rewrite <- app_assoc. reflexivity.
  - cbn [app strip]. replace (ecount 0 (rbsp_of (nal_bits n) ++ zeros (2 * S w))) with 2.
    + change ((2 =? 2) && (3 =? 3)) with true. cbv iota. eexists. rewrite <- app_assoc. reflexivity.
    + destruct (rbsp_last (nal_bits n)) as (p & x & -> & Hx). rewrite !ecount_app. cbn [ecount].
      replace (if (ecount 0 p =? 2) && (x <=? 3) then if x =? 0 then 1 else 0 else if x =? 0 then ecount 0 p + 1 else 0) with 0.
      * rewrite ecount_words. reflexivity.
      * replace (x =? 0) with false by lia. destruct ((ecount 0 p =? 2) && (x <=? 3)); reflexivity.
Qed.

Lemma rbsp_full : forall n m, exists t, rbind (rbsp (0 :: 0 :: 1 :: nal_body n ++ zeros m)) (fun d => Ok (to_bits d)) = Ok (nal_bits n ++ t).
Proof.
  intros n m. change (0 :: 0 :: 1 :: nal_body n ++ zeros m) with (start_prefix false ++ nal_body n ++ zeros m).
  rewrite rbsp_strip. cbn [rbind]. destruct (strip_body n (zeros m)) as [k ->]. rewrite to_bits_app.
  destruct (to_bits_rbsp (nal_bits n)) as [t ->]. rewrite <- app_assoc. eexists. reflexivity.
Qed.

Lemma on_rbsp_full : forall A (p : parser A) n m v, (forall t, exists t', p (nal_bits n ++ t) = Ok (v, t')) ->
  on_rbsp (0 :: 0 :: 1 :: nal_body n ++ zeros m) p = Ok v.
Proof.
  intros A p n m v H. destruct (rbsp_full n m) as [t E]. unfold on_rbsp.
  destruct (rbsp (0 :: 0 :: 1 :: nal_body n ++ zeros m)) as [d|]; [|discriminate]. cbn [rbind] in *.
  assert (E' : to_bits d = nal_bits n ++ t) by (inversion E; reflexivity). rewrite E'.
  destruct (H t) as [t' ->]. reflexivity.
Qed.

Lemma rbsp_cut : forall n e m, nal_body n = e ++ m -> exists d t, rbsp (0 :: 0 :: 1 :: e) = Ok d /\ nal_bits n ++ t = to_bits d ++ to_bits (strip (counts 0 e) m).
Proof.
  intros n e m E. exists (strip 0 e). destruct (to_bits_rbsp (nal_bits n)) as [t Et].
  exists (t ++ to_bits (zeros (2 * words_of n))). split.
  - change (0 :: 0 :: 1 :: e) with (start_prefix false ++ e). apply rbsp_strip.
  - rewrite <- to_bits_app, <- strip_app, <- E, app_assoc, <- Et, <- to_bits_app. destruct (strip_body n []) as [k K].
    rewrite app_nil_r in K. rewrite K. cbn [strip]. rewrite app_nil_r. reflexivity.
Qed.

Lemma on_rbsp_cut : forall A (p : parser A) n e m v, cuttable p -> (forall t, exists t', p (nal_bits n ++ t) = Ok (v, t')) -> nal_body n = e ++ m ->
  on_rbsp (0 :: 0 :: 1 :: e) p = Ok v \/ on_rbsp (0 :: 0 :: 1 :: e) p = Err ERead.
Proof.
  intros A p n e m v C H E. destruct (rbsp_cut n e m E) as (d & t & Ed & Et). unfold on_rbsp. rewrite Ed. cbn [rbind].
  destruct (H t) as [t' Hp]. rewrite Et in Hp. destruct (C _ _ _ _ Hp) as [(u & Hu & _)|Hu]; rewrite Hu; [left|right]; reflexivity.
Qed.
