(** The in-memory asynchronous file refines the ideal file. *)
From Verif Require Import Base BaseProofs PySlice AsyncBytes AsyncBytesSpec.
From Coq Require Import ZifyBool ZifyNat.
Ltac Zify.zify_post_hook ::= Z.div_mod_to_equations.

Lemma py_bound_in n i : 0 <= i <= n -> py_bound n i = i.
Proof. intros H. unfold py_bound. destruct (Z.ltb_spec i 0); lia. Qed.

Lemma py_slice_in {A} (l : list A) i j : 0 <= i -> i <= j <= zlen l -> py_slice l i j = zfirst (j - i) (zskip i l).
Proof. intros H1 H2. unfold py_slice. rewrite !py_bound_in by lia. reflexivity. Qed.

Lemma py_assign_in {A} (l : list A) i j x : 0 <= i -> i <= j <= zlen l -> py_assign l i j x = zfirst i l ++ x ++ zskip j l.
Proof. intros H1 H2. unfold py_assign. rewrite !py_bound_in by lia. rewrite Z.max_r by lia. reflexivity. Qed.

(** The buffer holds the contents, followed by spare room; the spare room is zero unless the file has been made
    shorter. *)
Record rel (a : abuf) (f : ideal) (sh : bool) : Prop := mkRel {
  rl_pos : ab_pos a = id_pos f;
  rl_nonneg : 0 <= id_pos f;
  rl_len : ab_len a = zlen (id_data f);
  rl_room : exists t, ab_buf a = id_data f ++ t /\ (sh = false -> Forall (fun x => x = 0) t) }.

Lemma zfirst_0 (l : bytes) : zfirst 0 l = [].
Proof. destruct l; reflexivity. Qed.

Lemma zeros_all n : Forall (fun x => x = 0) (zeros n).
Proof. apply Forall_forall. intros x H. apply repeat_spec in H. exact H. Qed.

Lemma all_zeros l : Forall (fun x => x = 0) l -> l = zeros (length l).
Proof. induction 1 as [|x l -> H IH]; [reflexivity|]. cbn [length zeros repeat]. now rewrite IH at 1. Qed.

Lemma zlen_zeros n : 0 <= n -> zlen (zeros (Z.to_nat n)) = n.
Proof. intros H. unfold zeros. rewrite zlen_repeat. lia. Qed.

Lemma zskip_zeros n m : 0 <= n -> 0 <= m -> zskip n (zeros (Z.to_nat m)) = zeros (Z.to_nat (m - n)).
Proof.
  intros Hn Hm. rewrite zskip_skipn. unfold zeros. replace (Z.to_nat (m - n)) with (Z.to_nat m - Z.to_nat n)%nat by lia.
  generalize (Z.to_nat m) as m', (Z.to_nat n) as n'. clear. intros m n. revert m.
  induction n as [|n IH]; intros [|m]; cbn [skipn repeat Nat.sub]; try reflexivity. apply IH.
Qed.

Lemma zfirst_zeros n m : 0 <= n <= m -> zfirst n (zeros (Z.to_nat m)) = zeros (Z.to_nat n).
Proof.
  intros H. rewrite zfirst_firstn. unfold zeros. replace (Z.to_nat m) with (Z.to_nat n + Z.to_nat (m - n))%nat by lia.
  rewrite repeat_app, firstn_app, repeat_length, Nat.sub_diag. cbn [firstn]. rewrite app_nil_r.
  rewrite <- (repeat_length 0 (Z.to_nat n)) at 1. now rewrite firstn_all.
Qed.

Lemma zeros_app n m : 0 <= n -> 0 <= m -> zeros (Z.to_nat n) ++ zeros (Z.to_nat m) = zeros (Z.to_nat (n + m)).
Proof. intros Hn Hm. unfold zeros. rewrite <- repeat_app. f_equal. lia. Qed.

Lemma readinto_rel a f sh size : rel a f sh -> 0 <= size ->
  let k := Z.min size (zlen (rest f)) in
  ab_readinto a size = (mkAb (ab_buf a) (ab_pos a + k) (ab_len a), (k, zfirst size (rest f) ++ zeros (Z.to_nat (size - k)))).
Proof.
  intros [R1 R2 R3 (t & R4 & R5)] HS. cbv zeta. unfold ab_readinto. rewrite R1, R3.
  assert (zlen (rest f) = Z.max 0 (zlen (id_data f) - id_pos f)) as EL by (unfold rest; now apply zlen_zskip).
  pose proof (zlen_nonneg (id_data f)). pose proof (zlen_nonneg t).
  destruct (0 <? Z.min (zlen (id_data f) - id_pos f) size) eqn:E.
  - replace (Z.min (zlen (id_data f) - id_pos f) size) with (Z.min size (zlen (rest f))) by lia.
    set (k := Z.min size (zlen (rest f))) in *. f_equal. f_equal.
    rewrite py_assign_in by (rewrite ?zlen_zeros; lia). rewrite py_slice_in by (rewrite ?R4, ?zlen_app; lia).
    rewrite zskip_zeros by lia. rewrite (zfirst_0 (zeros (Z.to_nat size))).
    cbn [app]. f_equal. rewrite R4, zskip_app_le by lia. fold (rest f). replace (id_pos f + k - id_pos f) with k by lia.
    rewrite zfirst_app_le by lia. unfold k. destruct (Z_le_gt_dec size (zlen (rest f))) as [H1|H1].
    + now rewrite Z.min_l by lia.
    + rewrite Z.min_r by lia. now rewrite !zfirst_all by lia.
  - assert (k0 : Z.min size (zlen (rest f)) = 0) by lia. rewrite k0, Z.add_0_r, Z.sub_0_r, <- R1, <- R3.
    destruct a as [b p l]. cbn [ab_buf ab_pos ab_len] in *. f_equal. f_equal.
    destruct (Z.eq_dec size 0) as [->|N]; [destruct (rest f); reflexivity|].
    assert (rest f = []) as -> by (apply zlen_0_nil; lia). reflexivity.
Qed.

Lemma overwrite_in data t pos d : 0 <= pos -> zlen d + pos <= zlen (data ++ t) ->
  (zlen data < pos -> Forall (fun x => x = 0) t) ->
  exists t', zfirst pos (data ++ t) ++ d ++ zskip (pos + zlen d) (data ++ t) = overwrite data pos d ++ t' /\
    (Forall (fun x => x = 0) t -> Forall (fun x => x = 0) t').
Proof.
  intros HP HL HZ. pose proof (zlen_nonneg data). pose proof (zlen_nonneg d). pose proof (zlen_nonneg t). rewrite zlen_app in HL.
  unfold overwrite. destruct (Z_le_gt_dec pos (zlen data)) as [H2|H2].
  - rewrite zfirst_app_le by lia. replace (Z.to_nat (pos - zlen data)) with 0%nat by lia. cbn [zeros repeat app].
    destruct (Z_le_gt_dec (pos + zlen d) (zlen data)) as [H3|H3].
    + exists t. rewrite zskip_app_le by lia. rewrite <- !app_assoc. auto.
    + exists (zskip (pos + zlen d - zlen data) t). rewrite zskip_app_ge by lia. rewrite zskip_all with (l := data) by lia.
      rewrite app_nil_r, <- app_assoc. split; [reflexivity|]. intros HF. rewrite zskip_skipn.
      rewrite Forall_forall in *. intros x Hx. apply HF. rewrite <- (firstn_skipn (Z.to_nat (pos + zlen d - zlen data)) t).
      apply in_or_app. now right.
  - specialize (HZ ltac:(lia)). exists (zskip (pos + zlen d - zlen data) t). rewrite zskip_app_ge by lia.
    rewrite zskip_all with (l := data) by lia. rewrite zfirst_app_ge by lia. rewrite zfirst_all with (l := data) by lia.
    rewrite app_nil_r, <- !app_assoc. split.
    + f_equal. f_equal. rewrite (all_zeros t HZ). assert (length t = Z.to_nat (zlen t)) as -> by (unfold zlen; lia).
      rewrite zfirst_zeros by lia. reflexivity.
    + intros HF. rewrite zskip_skipn.
      rewrite Forall_forall in *. intros x Hx. apply HF. rewrite <- (firstn_skipn (Z.to_nat (pos + zlen d - zlen data)) t).
      apply in_or_app. now right.
Qed.

Lemma zlen_overwrite data pos d : 0 <= pos -> zlen (overwrite data pos d) = Z.max (zlen data) (pos + zlen d).
Proof.
  intros HP. unfold overwrite. pose proof (zlen_nonneg data). pose proof (zlen_nonneg d).
  rewrite !zlen_app, zlen_zfirst, zlen_zskip by lia. unfold zeros. rewrite zlen_repeat. lia.
Qed.

Lemma write_rel a f sh d : rel a f sh -> (sh = true -> id_pos f <= zlen (id_data f)) ->
  snd (ab_write a d) = zlen d /\
  rel (fst (ab_write a d)) (mkId (overwrite (id_data f) (id_pos f) d) (id_pos f + zlen d)) sh.
Proof.
  intros [R1 R2 R3 (t & R4 & R5)] HF. unfold ab_write. rewrite R1. replace (id_pos f <? 0) with false by lia. cbn [fst snd].
  split; [reflexivity|]. pose proof (zlen_nonneg (id_data f)) as N1. pose proof (zlen_nonneg d) as N2. pose proof (zlen_nonneg t) as N3.
  match goal with |- context [py_assign ?b (id_pos f) _ d] => set (buf := b) end.
  assert (exists t', buf = id_data f ++ t' /\ (sh = false -> Forall (fun x => x = 0) t') /\ zlen d + id_pos f <= zlen (id_data f ++ t') /\
            (zlen (id_data f) < id_pos f -> Forall (fun x => x = 0) t')) as (t' & E & HZ & HL & HX).
  { unfold buf. destruct (zlen (ab_buf a) <? id_pos f + zlen d) eqn:E.
    - rewrite R4 in *. rewrite zlen_app in *. set (n := Z.max _ _). exists (zeros (Z.to_nat (n - zlen (id_data f)))).
      assert (n >= id_pos f + zlen d) by lia. assert (n >= zlen (id_data f)) by lia.
      rewrite R3, py_slice_in by (rewrite ?zlen_app; lia). cbn [zskip]. rewrite zskip_le0 by lia.
      rewrite py_assign_in by (rewrite ?zlen_zeros; lia). rewrite Z.sub_0_r, zfirst_app, zskip_zeros by lia.
      rewrite (zfirst_0 (zeros (Z.to_nat n))). cbn [app].
      split; [reflexivity|]. split; [intros _; apply zeros_all|]. split; [rewrite zlen_app, zlen_zeros; lia|intros _; apply zeros_all].
    - exists t. split; [exact R4|]. split; [exact R5|]. rewrite R4 in E. split; [lia|]. intros H. destruct sh; [lia|auto]. }
  rewrite E. rewrite py_assign_in by lia.
  destruct (overwrite_in (id_data f) t' (id_pos f) d R2 HL HX) as (t2 & E2 & HZ2).
  constructor; cbn [ab_pos ab_len ab_buf id_pos id_data]; [reflexivity|lia| |].
  - rewrite R3, zlen_overwrite by lia. lia.
  - exists t2. split; [exact E2|]. auto.
Qed.

Lemma rest_len f : 0 <= id_pos f -> zlen (rest f) = Z.max 0 (zlen (id_data f) - id_pos f).
Proof. intros H. unfold rest. now apply zlen_zskip. Qed.

Lemma readall_rel a f sh : rel a f sh -> ab_readall a = rest f.
Proof.
  intros [R1 R2 R3 (t & R4 & R5)]. unfold ab_readall. rewrite R1, R3. pose proof (rest_len f R2) as EL. pose proof (zlen_nonneg t).
  replace (0 <=? id_pos f) with true by lia. cbn [andb]. destruct (id_pos f <? zlen (id_data f)) eqn:E.
  - rewrite py_slice_in by (rewrite ?R4, ?zlen_app; lia). rewrite R4, zskip_app_le by lia. fold (rest f).
    rewrite zfirst_app_le by lia. apply zfirst_all. lia.
  - symmetry. apply zlen_0_nil. lia.
Qed.

Lemma value_rel a f sh : rel a f sh -> ab_value a = id_data f.
Proof.
  intros [R1 R2 R3 (t & R4 & R5)]. unfold ab_value. pose proof (zlen_nonneg (id_data f)). pose proof (zlen_nonneg t).
  rewrite R3, py_slice_in by (rewrite ?R4, ?zlen_app; lia). rewrite R4, zskip_le0, Z.sub_0_r by lia. apply zfirst_app.
Qed.

Lemma step_rel a f sh o : rel a f sh -> fair f sh o ->
  snd (ab_step a o) = snd (id_step f o) /\ rel (fst (ab_step a o)) (fst (id_step f o)) (sh || shrinks f o).
Proof.
  intros R HF. pose proof R as [R1 R2 R3 (t & R4 & R5)]. pose proof (rest_len f R2) as EL. pose proof (zlen_nonneg (id_data f)) as N1.
  assert (forall k, 0 <= k -> rel (mkAb (ab_buf a) (ab_pos a + k) (ab_len a)) (id_move f (id_pos f + k)) (sh || false)) as HM.
  { intros k Hk. rewrite orb_false_r. constructor; cbn [ab_pos ab_len ab_buf id_move id_pos id_data]; try lia. exists t. auto. }
  assert (zlen (rest f) = 0 -> rel a (id_move f (id_pos f + zlen (rest f))) (sh || false)) as HM0.
  { intros E. specialize (HM 0 ltac:(lia)). rewrite E. destruct a as [b p l]. cbn [ab_buf ab_pos ab_len] in *. now rewrite Z.add_0_r in HM at 1. }
  destruct o as [size|size| |d|size| |off w|]; cbn [ab_step id_step shrinks fair] in *.
  - unfold ab_read. destruct HF as [HF|[-> HF]].
    + replace (size =? -1) with false by lia. replace (size <? 0) with false by lia. rewrite (readinto_rel a f sh size R HF).
      destruct (zlen (rest f) <? size) eqn:E.
      * replace (Z.min size (zlen (rest f)) <? size) with true by lia. cbn [fst snd]. split; [reflexivity|]. apply HM. lia.
      * replace (Z.min size (zlen (rest f)) <? size) with false by lia. cbn [fst snd].
        rewrite Z.min_l by lia. replace (Z.to_nat (size - size)) with 0%nat by lia. cbn [zeros repeat]. rewrite app_nil_r.
        split; [reflexivity|]. apply HM. lia.
    + cbn [Z.eqb fst snd]. rewrite (readall_rel a f sh R), HF. split; [reflexivity|]. rewrite <- HF. apply HM0. now rewrite HF.
  - replace (size <? 0) with false by lia. rewrite (readinto_rel a f sh size R HF). cbn [fst snd]. split; [reflexivity|]. apply HM. lia.
  - cbn [fst snd]. rewrite (readall_rel a f sh R), HF. split; [reflexivity|]. rewrite <- HF. apply HM0. now rewrite HF.
  - destruct (write_rel a f sh d R HF) as [E1 E2]. destruct (ab_write a d) as [a1 n]. cbn [fst snd] in *. subst n.
    rewrite orb_false_r. auto.
  - assert (forall s, 0 <= s <= zlen (id_data f) ->
      rel (mkAb (ab_buf a) (ab_pos a) s) (mkId (zfirst s (id_data f)) (id_pos f)) (sh || (zlen (zfirst s (id_data f)) <? zlen (id_data f)))) as HT.
    { intros s Hs. assert (zlen (zfirst s (id_data f)) = s) as EZ by (rewrite zlen_zfirst; lia). rewrite EZ.
      constructor; cbn [ab_pos ab_len ab_buf id_pos id_data]; try lia. exists (zskip s (id_data f) ++ t).
      split; [rewrite app_assoc, zfirst_zskip; exact R4|]. intros H. apply orb_false_iff in H as [H1 H2].
      rewrite zskip_all by lia. cbn [app]. auto. }
    unfold ab_truncate. destruct size as [s|]; cbn [fst snd ab_len id_data].
    + split; [reflexivity|]. apply HT, HF.
    + rewrite R1 in *. rewrite Z.max_l by lia. split; [reflexivity|]. apply HT. lia.
  - cbn [fst snd]. rewrite R1, orb_false_r. auto.
  - cbn [fst snd] in *. split; [reflexivity|]. unfold ab_seek. rewrite R1, R3, orb_false_r.
    constructor; cbn [ab_pos ab_len ab_buf id_move id_pos id_data] in *; try assumption; [destruct w; reflexivity|reflexivity|]. exists t; auto.
  - cbn [fst snd]. rewrite (value_rel a f sh R), orb_false_r. auto.
Qed.

Lemma run_rel ops : forall a f sh, rel a f sh -> Fair f sh ops ->
  snd (ab_run a ops) = snd (id_run f ops) /\ exists sh', rel (fst (ab_run a ops)) (fst (id_run f ops)) sh'.
Proof.
  induction ops as [|o ops IH]; intros a f sh R HF; [split; [reflexivity|exists sh; exact R]|].
  inversion HF as [|? ? ? ? H1 H2]; subst. destruct (step_rel a f sh o R H1) as [E R']. cbn [ab_run id_run].
  destruct (ab_step a o) as [a1 r]. destruct (id_step f o) as [f1 r']. cbn [fst snd] in *. subst r'.
  destruct (IH a1 f1 _ R' H2) as [E2 [sh' R2]]. destruct (ab_run a1 ops) as [a2 rs]. destruct (id_run f1 ops) as [f2 rs'].
  cbn [fst snd] in *. subst rs'. split; [reflexivity|exists sh'; exact R2].
Qed.

Lemma new_rel b : rel (ab_new b) (mkId b 0) false.
Proof. constructor; cbn; try lia; try reflexivity. exists []. split; [now rewrite app_nil_r|constructor]. Qed.

(** All results of a fair history are those of the ideal file, and so are position and contents at the end. *)
Theorem bytes_refines b ops : Fair (mkId b 0) false ops ->
  snd (ab_run (ab_new b) ops) = snd (id_run (mkId b 0) ops) /\
  ab_pos (fst (ab_run (ab_new b) ops)) = id_pos (fst (id_run (mkId b 0) ops)) /\
  ab_value (fst (ab_run (ab_new b) ops)) = id_data (fst (id_run (mkId b 0) ops)).
Proof.
  intros HF. destruct (run_rel ops _ _ _ (new_rel b) HF) as [E [sh R]]. split; [exact E|].
  split; [apply (rl_pos _ _ _ R)|apply (value_rel _ _ _ R)].
Qed.

(** Reading everything gives everything, but does not move the position. *)
Theorem bytes_readall b ops : Fair (mkId b 0) false ops ->
  let a := fst (ab_run (ab_new b) ops) in
  let f := fst (id_run (mkId b 0) ops) in
  ab_step a AReadAll = (a, Ok (OBytes (rest f))) /\ ab_step a (ARead (-1)) = (a, Ok (OBytes (rest f))).
Proof.
  intros HF. destruct (run_rel ops _ _ _ (new_rel b) HF) as [E [sh R]]. cbv zeta. cbn [ab_step]. unfold ab_read. cbn [Z.eqb].
  rewrite (readall_rel _ _ _ R). split; reflexivity.
Qed.

(** Before the beginning. *)
Lemma run_app a : forall ops ops', fst (ab_run a (ops ++ ops')) = fst (ab_run (fst (ab_run a ops)) ops').
Proof.
  intros ops. revert a. induction ops as [|o ops IH]; intros a ops'; [reflexivity|]. cbn [app ab_run]. destruct (ab_step a o) as [a1 r]. specialize (IH a1 ops').
  destruct (ab_run a1 (ops ++ ops')) as [a2 rs], (ab_run a1 ops) as [a3 rs3]. cbn [fst] in IH |- *. exact IH.
Qed.
Theorem bytes_negative b ops n d : n < 0 -> let a := fst (ab_run (ab_new b) (ops ++ [ASeek n SeekSet])) in
  ab_run a [AWrite d; ATell; AReadAll; ATell] = (a, [Ok (ONum 0); Ok (ONum n); Ok (OBytes []); Ok (ONum n)]) /\
  ab_value a = ab_value (fst (ab_run (ab_new b) ops)).
Proof.
  intros N a. unfold a. rewrite run_app. set (a0 := fst (ab_run (ab_new b) ops)). cbn [ab_run ab_step fst]. unfold ab_seek.
  assert (W : ab_write (mkAb (ab_buf a0) n (ab_len a0)) d = (mkAb (ab_buf a0) n (ab_len a0), 0)) by (unfold ab_write; cbn [ab_pos]; replace (n <? 0) with true by lia; reflexivity).
  assert (R : ab_readall (mkAb (ab_buf a0) n (ab_len a0)) = []) by (unfold ab_readall; cbn [ab_pos]; replace (0 <=? n) with false by lia; reflexivity).
  rewrite W, R. split; reflexivity.
Qed.
