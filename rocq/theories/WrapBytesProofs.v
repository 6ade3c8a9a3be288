(** The wrapped BytesIO is an ideal file. *)
From Coq Require Import Lia ZifyBool ZifyNat.
From Verif Require Import Base BaseProofs PySlice AsyncBytes AsyncBytesSpec AsyncBytesProofs WrapBytes WrapBytesSpec.

Definition as_bio (f : ideal) : bio := mkBio (id_data f) (id_pos f).
Lemma slice_rest f n : 0 <= id_pos f -> 0 <= n <= zlen (rest f) -> py_slice (id_data f) (id_pos f) (id_pos f + n) = zfirst n (rest f).
Proof.
  intros P N. pose proof (rest_len f P) as L. destruct (Z.le_gt_cases (id_pos f + n) (zlen (id_data f))) as [H|H].
  - rewrite py_slice_in by lia. unfold rest. f_equal. lia.
  - assert (E : n = 0) by lia. subst n. rewrite zfirst_0. unfold py_slice. cbv zeta. rewrite Z.add_0_r, Z.sub_diag. apply zfirst_0.
Qed.
Lemma overwrite_padded data pos d : 0 <= pos ->
  py_assign (if zlen data <? pos then data ++ zeros (Z.to_nat (pos - zlen data)) else data) pos (pos + zlen d) d = overwrite data pos d.
Proof.
  intros P. pose proof (zlen_nonneg data) as N. pose proof (zlen_nonneg d) as Nd. unfold overwrite. destruct (zlen data <? pos) eqn:E.
  - set (z := zeros (Z.to_nat (pos - zlen data))). assert (Lz : zlen (data ++ z) = pos) by (unfold z; rewrite zlen_app, zlen_zeros; lia).
    unfold py_assign, py_bound. rewrite Lz. replace (pos <? 0) with false by lia. replace (pos + zlen d <? 0) with false by lia.
    replace (Z.max 0 (Z.min pos pos)) with pos by lia. replace (Z.max pos (Z.max 0 (Z.min pos (pos + zlen d)))) with pos by lia.
    rewrite (zfirst_all pos (data ++ z)) by lia. rewrite (zskip_all pos (data ++ z)) by lia. rewrite (zfirst_all pos data) by lia. rewrite (zskip_all (pos + zlen d) data) by lia.
    rewrite <- app_assoc. reflexivity.
  - replace (Z.to_nat (pos - zlen data)) with 0%nat by lia. cbn [zeros repeat List.app]. unfold py_assign, py_bound.
    replace (pos <? 0) with false by lia. replace (pos + zlen d <? 0) with false by lia. replace (Z.max 0 (Z.min (zlen data) pos)) with pos by lia.
    f_equal. f_equal. destruct (Z.le_gt_cases (pos + zlen d) (zlen data)).
    + f_equal. lia.
    + rewrite !zskip_all by lia. reflexivity.
Qed.
Lemma wb_step_rel f o : 0 <= id_pos f -> decent f o ->
  fst (wb_step (as_bio f) o) = as_bio (fst (id_step f o)) /\ short f o (snd (wb_step (as_bio f) o)) /\ 0 <= id_pos (fst (id_step f o)).
Proof.
  intros P D. pose proof (rest_len f P) as L. pose proof (zlen_nonneg (id_data f)) as N. pose proof (zlen_nonneg (rest f)) as Nr.
  destruct o as [size|size| |d|size| |off w|]; cbn [decent] in D.
  - cbn [wb_step short]. unfold bio_read, as_bio. cbn [bio_data bio_pos].
    assert (G : forall k, 0 <= k <= zlen (rest f) -> py_slice (id_data f) (id_pos f) (id_pos f + k) = zfirst k (rest f)) by (intros; apply slice_rest; assumption).
    cbn [id_step]. destruct (size =? -1) eqn:E1.
    + replace (size <? 0) with true by lia. cbn [orb fst snd]. replace (Z.max (zlen (id_data f) - id_pos f) 0) with (zlen (rest f)) by lia. rewrite G by lia. rewrite zfirst_all by lia.
      split; [reflexivity|]. split; [reflexivity|]. cbn [id_move id_pos]. lia.
    + replace (size <? 0) with false by lia. cbn [orb fst snd].
      replace (if zlen (id_data f) - id_pos f <? size then Z.max (zlen (id_data f) - id_pos f) 0 else size) with (Z.min size (zlen (rest f))) by (destruct (zlen (id_data f) - id_pos f <? size) eqn:E2; lia).
      rewrite G by lia. split; [reflexivity|]. split; [|cbn [id_move id_pos]; lia]. f_equal. f_equal.
      destruct (Z.le_gt_cases size (zlen (rest f))); [f_equal; lia|]. rewrite !zfirst_all by lia. reflexivity.
  - cbn [wb_step short]. replace (size <? 0) with false by lia. unfold bio_readinto, as_bio. cbn [bio_data bio_pos].
    replace (if zlen (id_data f) - id_pos f <? size then Z.max (zlen (id_data f) - id_pos f) 0 else size) with (Z.min size (zlen (rest f))) by (destruct (zlen (id_data f) - id_pos f <? size) eqn:E2; lia).
    cbn [id_step fst snd]. rewrite slice_rest by lia. rewrite py_assign_in by (rewrite ?zlen_zeros; lia). rewrite zfirst_0. cbn [List.app]. rewrite zskip_zeros by lia.
    split; [reflexivity|]. split; [|cbn [id_move id_pos]; lia]. f_equal. f_equal. f_equal. destruct (Z.le_gt_cases size (zlen (rest f))); [f_equal; lia|]. rewrite !zfirst_all by lia. reflexivity.
  - contradiction.
  - cbn [wb_step short]. pose proof (zlen_nonneg d). unfold bio_write, as_bio. cbn [bio_data bio_pos]. cbn [id_step fst snd id_pos id_data]. destruct (zlen d =? 0) eqn:E.
    + cbn [fst snd]. assert (d = []) by (apply zlen_0_nil; lia). subst d. destruct D as [D|D]; [congruence|]. unfold overwrite. change (zlen (@nil Z)) with 0. replace (Z.to_nat (id_pos f - zlen (id_data f))) with 0%nat by lia.
      cbn [zeros repeat List.app]. rewrite Z.add_0_r, zfirst_zskip. split; [reflexivity|]. split; [reflexivity|]. lia.
    + cbn [fst snd]. rewrite overwrite_padded by exact P. split; [reflexivity|]. split; [reflexivity|]. lia.
  - cbn [wb_step short]. unfold bio_truncate, as_bio. cbn [bio_data bio_pos]. cbn [id_step fst snd id_pos id_data]. set (s := match size with Some s => s | None => id_pos f end).
    assert (Hs : 0 <= s) by (unfold s; destruct size; assumption). replace (s <? 0) with false by lia. cbn [onum fst snd]. split; [|split; [reflexivity|exact P]]. f_equal.
    destruct (s <? zlen (id_data f)) eqn:E; [|rewrite zfirst_all by lia; reflexivity]. rewrite py_slice_in by lia. rewrite zskip_le0, Z.sub_0_r by lia. reflexivity.
  - cbn [wb_step short id_step fst snd]. split; [reflexivity|]. split; [reflexivity|exact P].
  - cbn [wb_step short]. unfold bio_seek, as_bio. cbn [bio_data bio_pos]. cbn [id_step fst snd id_move id_pos id_data] in *. destruct w.
    + replace (off <? 0) with false by lia. cbn [onum fst snd]. auto.
    + replace (Z.max 0 (id_pos f + off)) with (id_pos f + off) by lia. cbn [onum fst snd]. auto.
    + replace (Z.max 0 (zlen (id_data f) + off)) with (zlen (id_data f) + off) by lia. cbn [onum fst snd]. auto.
  - cbn [wb_step short id_step fst snd]. split; [reflexivity|]. split; [reflexivity|exact P].
Qed.
Lemma wb_run_rel ops : forall f, 0 <= id_pos f -> Decent f ops -> fst (wb_run (as_bio f) ops) = as_bio (fst (id_run f ops)) /\ shorts f ops (snd (wb_run (as_bio f) ops)).
Proof.
  induction ops as [|o ops IH]; intros f P D; [split; [reflexivity|constructor]|]. inversion D as [|? ? ? D1 D2]; subst. destruct (wb_step_rel f o P D1) as (E & S & P').
  cbn [wb_run id_run]. destruct (IH _ P' D2) as [E2 S2]. destruct (wb_step (as_bio f) o) as [f1 r]. cbn [fst snd] in *. subst f1. destruct (id_step f o) as [g r'] eqn:I. cbn [fst snd] in *.
  destruct (wb_run (as_bio g) ops) as [f2 rs]. destruct (id_run g ops) as [g2 rs']. cbn [fst snd] in *. split; [exact E2|]. constructor; [exact S|]. rewrite I. exact S2.
Qed.
Theorem wrapped_ideal b ops : Decent (mkId b 0) ops ->
  shorts (mkId b 0) ops (snd (wb_run (bio_new b) ops)) /\
  bio_pos (fst (wb_run (bio_new b) ops)) = id_pos (fst (id_run (mkId b 0) ops)) /\ bio_data (fst (wb_run (bio_new b) ops)) = id_data (fst (id_run (mkId b 0) ops)).
Proof.
  intros D. destruct (wb_run_rel ops (mkId b 0) (Z.le_refl 0) D) as [E S]. change (as_bio (mkId b 0)) with (bio_new b) in *. rewrite E. auto.
Qed.
Lemma short_within f o r : 0 <= id_pos f -> decent f o -> within f o -> short f o r -> is_seek o = false -> r = snd (id_step f o).
Proof.
  intros P D W S K. destruct o as [size|size| |d|size| |off w|]; cbn [short] in S; try exact S; [|discriminate K]. cbn [decent within id_step] in *. subst r. destruct (size =? -1) eqn:E.
  - replace (size <? 0) with true by lia. reflexivity.
  - replace (size <? 0) with false by lia. cbn [snd]. replace (zlen (rest f) <? size) with false by lia. reflexivity.
Qed.
Lemma ideal_forward f o : 0 <= id_pos f -> decent f o -> 0 <= id_pos (fst (id_step f o)).
Proof. intros P D. apply (wb_step_rel f o P D). Qed.
Lemma indistinct_ideal ops : forall f rs, 0 <= id_pos f -> Decent f ops -> Within f ops -> shorts f ops rs -> indistinct ops (snd (id_run f ops)) rs.
Proof.
  induction ops as [|o ops IH]; intros f rs P D W S; inversion S as [|? ? ? r rs' S1 S2]; subst; [constructor|]. inversion D as [|? ? ? D1 D2]; subst. inversion W as [|? ? ? W1 W2]; subst.
  pose proof (short_within f o r P D1 W1 S1) as K. pose proof (IH _ _ (ideal_forward f o P D1) D2 W2 S2) as Q. cbn [id_run]. destruct (id_step f o) as [g r']. cbn [fst snd] in *.
  destruct (id_run g ops) as [g2 rs2]. cbn [fst snd] in *. constructor; [intros H; symmetry; apply K, H|exact Q].
Qed.
Theorem memory_wrapped b ops : Fair (mkId b 0) false ops -> Decent (mkId b 0) ops -> Within (mkId b 0) ops ->
  indistinct ops (snd (ab_run (ab_new b) ops)) (snd (wb_run (bio_new b) ops)) /\
  ab_pos (fst (ab_run (ab_new b) ops)) = bio_pos (fst (wb_run (bio_new b) ops)) /\ ab_value (fst (ab_run (ab_new b) ops)) = bio_data (fst (wb_run (bio_new b) ops)).
Proof.
  intros F D W. destruct (bytes_refines b ops F) as (E1 & E2 & E3). destruct (wrapped_ideal b ops D) as (S1 & S2 & S3). rewrite E1, E2, E3, S2, S3. split; [|auto].
  apply indistinct_ideal; try assumption. cbn [id_pos]. lia.
Qed.
