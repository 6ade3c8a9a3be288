(** The list operations meet their specification. *)
From Coq Require Import ZifyBool.
From Verif Require Import Base BaseProofs PySlice PyList ListSpec.
Local Open Scope list_scope.

Lemma zlen_app' {A} (a b : list A) : zlen (a ++ b) = zlen a + zlen b.
Proof. unfold zlen. rewrite app_length. lia. Qed.
Lemma zlen_cons' {A} (x : A) b : zlen (x :: b) = 1 + zlen b.
Proof. unfold zlen. cbn [List.length]. lia. Qed.
Lemma zlen_pos {A} (a : list A) : 0 <= zlen a.
Proof. unfold zlen. lia. Qed.
Lemma zskip_here {A} (a b : list A) : zskip (zlen a) (a ++ b) = b.
Proof. rewrite zskip_app_ge by lia. rewrite zskip_le0 by lia. reflexivity. Qed.
Lemma zskip_past {A} (a : list A) x b : zskip (zlen a + 1) (a ++ x :: b) = b.
Proof. replace (a ++ x :: b) with ((a ++ [x]) ++ b) by (rewrite <- app_assoc; reflexivity). replace (zlen a + 1) with (zlen (a ++ [x])) by (rewrite zlen_app'; reflexivity). apply zskip_here. Qed.
Lemma zfirst_here {A} (a b : list A) : zfirst (zlen a) (a ++ b) = a.
Proof. rewrite zfirst_app_le by lia. apply zfirst_all. lia. Qed.
Lemma idx_at {A} (l : list A) i a x b : at_index l i a x b -> py_idx (zlen l) i = Some (zlen a).
Proof.
  intros [-> H]. unfold py_idx. rewrite zlen_app', zlen_cons'. pose proof (zlen_pos a). pose proof (zlen_pos b).
  destruct H as [->| ->].
  - replace (zlen a <? 0) with false by lia. replace ((0 <=? zlen a) && (zlen a <? zlen a + (1 + zlen b))) with true by lia. reflexivity.
  - replace (- zlen b - 1 <? 0) with true by lia. replace (- zlen b - 1 + (zlen a + (1 + zlen b))) with (zlen a) by lia.
    replace ((0 <=? zlen a) && (zlen a <? zlen a + (1 + zlen b))) with true by lia. reflexivity.
Qed.
Lemma split_at {A} (l : list A) j : 0 <= j < zlen l -> exists a x b, l = a ++ x :: b /\ zlen a = j.
Proof.
  revert j. induction l as [|y l IH]; intros j H.
  - unfold zlen in H. cbn in H. lia.
  - rewrite zlen_cons' in H. destruct (Z.eq_dec j 0) as [->|N].
    + exists [], y, l. split; reflexivity.
    + destruct (IH (j - 1)) as (a & x & b & -> & E); [lia|]. exists (y :: a), x, b. split; [reflexivity|]. rewrite zlen_cons'. lia.
Qed.
Lemma idx_some {A} (l : list A) i j : py_idx (zlen l) i = Some j -> exists a x b, at_index l i a x b.
Proof.
  unfold py_idx. intros H. destruct (i <? 0) eqn:B.
  - destruct ((0 <=? i + zlen l) && (i + zlen l <? zlen l)) eqn:C; [|discriminate]. destruct (split_at l (i + zlen l)) as (a & x & b & E & L); [lia|].
    exists a, x, b. split; [exact E|]. subst l. rewrite zlen_app', zlen_cons' in L. right. lia.
  - destruct ((0 <=? i) && (i <? zlen l)) eqn:C; [|discriminate]. destruct (split_at l i) as (a & x & b & E & L); [lia|]. exists a, x, b. split; [exact E|]. left. lia.
Qed.
Lemma idx_none {A} (l : list A) i : no_index l i <-> py_idx (zlen l) i = None.
Proof.
  split.
  - intros H. destruct (py_idx (zlen l) i) eqn:E; [|reflexivity]. destruct (idx_some _ _ _ E) as (a & x & b & X). destruct (H _ _ _ X).
  - intros H a x b X. rewrite (idx_at _ _ _ _ _ X) in H. discriminate.
Qed.
Lemma index_cases {A} (l : list A) i : (exists a x b, at_index l i a x b) \/ no_index l i.
Proof. destruct (py_idx (zlen l) i) eqn:E; [left; exact (idx_some _ _ _ E)|right; apply idx_none; exact E]. Qed.

Lemma lget_at {A} (l : list A) i a x b : at_index l i a x b -> lget l i = Ok x.
Proof. intros H. unfold lget. rewrite (idx_at _ _ _ _ _ H). destruct H as [-> _]. rewrite zskip_here. reflexivity. Qed.
Lemma lput_at {A} (l : list A) i a x b v : at_index l i a x b -> lput l i v = Ok (a ++ v :: b).
Proof. intros H. unfold lput. rewrite (idx_at _ _ _ _ _ H). destruct H as [-> _]. rewrite zfirst_here, zskip_past. reflexivity. Qed.
Lemma lcut_at {A} (l : list A) i a x b : at_index l i a x b -> lcut l i = Ok (a ++ b).
Proof. intros H. unfold lcut. rewrite (idx_at _ _ _ _ _ H). destruct H as [-> _]. rewrite zfirst_here, zskip_past. reflexivity. Qed.
Lemma lget_none {A} (l : list A) i : no_index l i -> lget l i = Err EIndex.
Proof. intros H. apply idx_none in H. unfold lget. rewrite H. reflexivity. Qed.
Lemma lput_none {A} (l : list A) i v : no_index l i -> lput l i v = Err EIndex.
Proof. intros H. apply idx_none in H. unfold lput. rewrite H. reflexivity. Qed.
Lemma lcut_none {A} (l : list A) i : no_index l i -> lcut l i = Err EIndex.
Proof. intros H. apply idx_none in H. unfold lcut. rewrite H. reflexivity. Qed.
Lemma split_between {A} (l : list A) j : 0 <= j <= zlen l -> exists a b, l = a ++ b /\ zlen a = j.
Proof.
  intros H. destruct (Z.eq_dec j (zlen l)) as [->|N].
  - exists l, []. split; [symmetry; apply app_nil_r|reflexivity].
  - destruct (split_at l j) as (a & x & b & -> & E); [lia|]. exists a, (x :: b). auto.
Qed.
Lemma bound_between {A} (l : list A) i a b : between l i a b -> py_bound (zlen l) i = zlen a.
Proof.
  intros [-> H]. unfold py_bound. rewrite zlen_app'. pose proof (zlen_pos a). pose proof (zlen_pos b).
  destruct H as [->|[[-> N]|[[-> L]|[-> L]]]].
  - replace (zlen a <? 0) with false by lia. lia.
  - destruct b as [|y b]; [congruence|]. rewrite zlen_cons' in *. pose proof (zlen_pos b). replace (- (1 + zlen b) <? 0) with true by lia. lia.
  - change (zlen (@nil A)) with 0. replace (i <? 0) with false by lia. lia.
  - change (zlen (@nil A)) with 0 in *. replace (i <? 0) with true by lia. lia.
Qed.
Lemma linsert_between {A} (l : list A) i a b v : between l i a b -> linsert l i v = a ++ v :: b.
Proof. intros H. unfold linsert. rewrite (bound_between _ _ _ _ H). destruct H as [-> _]. rewrite zfirst_here, zskip_here. reflexivity. Qed.
Lemma between_exists {A} (l : list A) i : exists a b, between l i a b.
Proof.
  pose proof (zlen_pos l) as P. destruct (Z_lt_ge_dec i (- zlen l)) as [L|G].
  - exists [], l. split; [reflexivity|]. auto.
  - destruct (Z_lt_ge_dec i 0) as [L|G2].
    + destruct (split_between l (i + zlen l)) as (a & b & -> & E); [lia|]. exists a, b. split; [reflexivity|]. rewrite zlen_app' in *. right; left. split; [lia|].
      intros ->. change (zlen (@nil A)) with 0 in *. lia.
    + destruct (Z_lt_ge_dec (zlen l) i) as [L2|G3].
      * exists l, []. split; [symmetry; apply app_nil_r|]. auto.
      * destruct (split_between l i) as (a & b & -> & E); [lia|]. exists a, b. split; [reflexivity|]. auto.
Qed.
