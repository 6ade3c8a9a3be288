(** Proofs about the bit readers and the parameter sets of H264.v. *)
From Coq Require Import Lia ZifyBool ZifyNat.
From Verif Require Import Base BaseProofs PatternTime Wrap H264 H264Spec.
Ltac Zify.zify_post_hook ::= Z.div_mod_to_equations.

(** ** Reading what was written *)
Lemma put_length : forall n v, length (put n v) = n.
Proof. induction n; intros v; cbn [put length]; [reflexivity|]. rewrite IHn. reflexivity. Qed.

Lemma zlen_put : forall n v, zlen (put n v) = Z.of_nat n.
Proof. intros n v. unfold zlen. rewrite put_length. reflexivity. Qed.

Lemma bits_value_app : forall l m n, fold_left (fun n (b : bool) => 2 * n + (if b then 1 else 0)) (l ++ m) n =
  fold_left (fun n (b : bool) => 2 * n + (if b then 1 else 0)) m (fold_left (fun n (b : bool) => 2 * n + (if b then 1 else 0)) l n).
Proof. intros. apply fold_left_app. Qed.

Lemma put_value : forall n v a, 0 <= v -> fold_left (fun n (b : bool) => 2 * n + (if b then 1 else 0)) (put n v) a = a * 2 ^ Z.of_nat n + v mod 2 ^ Z.of_nat n.
Proof.
  induction n as [|n IH]; intros v a Hv.
  - cbn [put fold_left]. change (Z.of_nat 0) with 0. change (2 ^ 0) with 1. rewrite Z.mod_1_r. lia.
  - cbn [put fold_left]. rewrite IH by assumption.
    rewrite Nat2Z.inj_succ, Z.pow_succ_r by lia.
    pose proof (Z.pow_pos_nonneg 2 (Z.of_nat n) ltac:(lia) ltac:(lia)) as Hp.
    rewrite (Z.mul_comm 2 (2 ^ Z.of_nat n)).
    rewrite Z.rem_mul_r by lia.
    rewrite <- (Z.testbit_spec' v (Z.of_nat n)) by lia.
    unfold Z.b2z. destruct (Z.testbit v (Z.of_nat n)); ring.
Qed.

Lemma bits_value_put : forall n v, 0 <= v < 2 ^ Z.of_nat n -> bits_value (put n v) = v.
Proof.
  intros n v H. unfold bits_value. rewrite put_value by lia. rewrite Z.mod_small by assumption. lia.
Qed.

Lemma zfirst_len : forall A n (l t : list A), zlen l = n -> zfirst n (l ++ t) = l.
Proof. intros A n l t <-. apply zfirst_app. Qed.
Lemma zskip_len : forall A n (l t : list A), zlen l = n -> zskip n (l ++ t) = t.
Proof. intros A n l t <-. apply zskip_app. Qed.

Lemma uint_put : forall n v t, 0 < n -> 0 <= v < 2 ^ n -> uint n (put (Z.to_nat n) v ++ t) = Ok (v, t).
Proof.
  intros n v t Hn Hv. unfold uint.
  replace (n =? 0) with false by lia.
  assert (L : zlen (put (Z.to_nat n) v) = n) by (rewrite zlen_put; lia).
  replace (zlen (put (Z.to_nat n) v ++ t) <? n) with false.
  2:{ rewrite zlen_app, L. pose proof (zlen_nonneg t). lia. }
  rewrite zfirst_len, zskip_len by assumption.
  rewrite bits_value_put; [reflexivity|]. rewrite Z2Nat.id by lia. assumption.
Qed.

Lemma zeros_before_repeat : forall k t, zeros_before_one (repeat false k ++ true :: t) = Some (Z.of_nat k, t).
Proof.
  induction k as [|k IH]; intros t; cbn [repeat app zeros_before_one]; [reflexivity|].
  rewrite IH. f_equal. f_equal. lia.
Qed.

Lemma put_head : forall k w, 2 ^ Z.of_nat k <= w < 2 ^ (Z.of_nat k + 1) -> put (S k) w = true :: put k (w - 2 ^ Z.of_nat k).
Proof.
  intros k w H. cbn [put].
  assert (P : 0 < 2 ^ Z.of_nat k) by (apply Z.pow_pos_nonneg; lia).
  rewrite Z.pow_add_r in H by lia. change (2 ^ 1) with 2 in H.
  f_equal.
  - rewrite Z.testbit_eqb by lia. replace (w / 2 ^ Z.of_nat k) with 1; [reflexivity|].
    apply Z.div_unique with (w - 2 ^ Z.of_nat k); lia.
  - assert (G : forall m, (m <= k)%nat -> put m w = put m (w - 2 ^ Z.of_nat k)).
    { induction m as [|m IH]; intros Hm; cbn [put]; [reflexivity|].
      rewrite IH by lia. f_equal.
      rewrite !Z.testbit_eqb by lia.
      assert (E : 2 ^ Z.of_nat k = 2 ^ Z.of_nat (k - m - 1) * 2 * 2 ^ Z.of_nat m).
      { replace (Z.of_nat k) with (Z.of_nat (k - m - 1) + 1 + Z.of_nat m) at 1 by lia.
        rewrite !Z.pow_add_r by lia. change (2 ^ 1) with 2. ring. }
      rewrite E. set (c := 2 ^ Z.of_nat (k - m - 1)).
      assert (Pm : 0 < 2 ^ Z.of_nat m) by (apply Z.pow_pos_nonneg; lia).
      replace (w - c * 2 * 2 ^ Z.of_nat m) with (w + (- c * 2) * 2 ^ Z.of_nat m) by ring.
      rewrite Z.div_add by lia.
      replace (w / 2 ^ Z.of_nat m + - c * 2) with (w / 2 ^ Z.of_nat m + (- c) * 2) by ring.
      rewrite Z.mod_add by lia. reflexivity. }
    apply G. lia.
Qed.

Lemma ue_golomb : forall v t, 0 <= v -> ue (golomb v ++ t) = Ok (v, t).
Proof.
  intros v t Hv. unfold ue, golomb. cbv zeta.
  set (k := Z.to_nat (Z.log2 (v + 1))).
  assert (K : Z.of_nat k = Z.log2 (v + 1)) by (unfold k; rewrite Z2Nat.id; [reflexivity|apply Z.log2_nonneg]).
  pose proof (Z.log2_spec (v + 1) ltac:(lia)) as S. rewrite <- K in S. rewrite <- Z.add_1_r in S.
  rewrite put_head by assumption.
  rewrite <- app_assoc. cbn [app]. rewrite zeros_before_repeat.
  destruct (Z.of_nat k =? 0) eqn:Z.
  - apply Z.eqb_eq in Z. rewrite Z in S. change (2 ^ 0) with 1 in S. change (2 ^ (0 + 1)) with 2 in S.
    assert (k = 0%nat) by lia. rewrite H. cbn [put app]. replace v with 0 by lia. reflexivity.
  - assert (L : zlen (put k (v + 1 - 2 ^ Z.of_nat k)) = Z.of_nat k) by apply zlen_put.
    replace (zlen (put k (v + 1 - 2 ^ Z.of_nat k) ++ t) <? Z.of_nat k) with false.
    2:{ rewrite zlen_app, L. pose proof (zlen_nonneg t). lia. }
    rewrite zfirst_len, zskip_len by assumption.
    rewrite bits_value_put.
    2:{ rewrite Z.pow_add_r in S by lia. change (2 ^ 1) with 2 in S. lia. }
    f_equal. f_equal. lia.
Qed.

Lemma se_signed : forall v t, se (signed v ++ t) = Ok (v, t).
Proof.
  intros v t. unfold se, pbind, signed.
  rewrite ue_golomb by (destruct (0 <? v) eqn:E; lia).
  unfold pret. f_equal. f_equal.
  destruct (0 <? v) eqn:E.
  - replace ((2 * v - 1) mod 2 =? 0) with false by lia. lia.
  - replace ((- (2 * v)) mod 2 =? 0) with true by lia. lia.
Qed.

(** ** The readers accept nothing else *)
Lemma bits_value_bound : forall l a, 0 <= a -> a * 2 ^ zlen l <= fold_left (fun n (b : bool) => 2 * n + (if b then 1 else 0)) l a < (a + 1) * 2 ^ zlen l.
Proof.
  induction l as [|b l IH]; intros a Ha.
  - cbn [fold_left]. change (zlen (@nil bool)) with 0. change (2 ^ 0) with 1. lia.
  - cbn [fold_left]. rewrite zlen_cons.
    specialize (IH (2 * a + (if b then 1 else 0)) ltac:(destruct b; lia)).
    replace (2 ^ (1 + zlen l)) with (2 * 2 ^ zlen l).
    2:{ rewrite Z.pow_add_r by (pose proof (zlen_nonneg l); lia). reflexivity. }
    pose proof (Z.pow_pos_nonneg 2 (zlen l) ltac:(lia) (zlen_nonneg l)) as P.
    destruct b; nia.
Qed.

Lemma put_bits_value : forall l a, 0 <= a -> put (length l) (fold_left (fun n (b : bool) => 2 * n + (if b then 1 else 0)) l a) = l.
Proof.
  induction l as [|b l IH]; intros a Ha; [reflexivity|].
  cbn [fold_left length put]. f_equal.
  - pose proof (bits_value_bound l (2 * a + (if b then 1 else 0)) ltac:(destruct b; lia)) as B.
    set (w := fold_left _ l _) in *.
    rewrite Z.testbit_eqb by lia.
    change (Z.of_nat (length l)) with (zlen l).
    replace (w / 2 ^ zlen l) with (2 * a + (if b then 1 else 0)).
    + destruct b; lia.
    + pose proof (Z.pow_pos_nonneg 2 (zlen l) ltac:(lia) (zlen_nonneg l)) as P.
      apply Z.div_unique with (w - (2 * a + (if b then 1 else 0)) * 2 ^ zlen l); nia.
  - apply IH. destruct b; lia.
Qed.

Lemma uint_inv : forall n b v t, 0 < n -> uint n b = Ok (v, t) -> b = put (Z.to_nat n) v ++ t /\ 0 <= v < 2 ^ n.
Proof.
  intros n b v t Hn H. unfold uint in H.
  destruct (n =? 0) eqn:E; [discriminate|].
  destruct (zlen b <? n) eqn:L; [discriminate|].
  assert (V : v = bits_value (zfirst n b)) by congruence.
  assert (T : t = zskip n b) by congruence. subst t.
  assert (Lf : zlen (zfirst n b) = n) by (rewrite zlen_zfirst by lia; lia).
  split.
  - rewrite V. unfold bits_value.
    replace (Z.to_nat n) with (length (zfirst n b)) by (unfold zlen in Lf; lia).
    rewrite put_bits_value by lia. symmetry. apply zfirst_zskip.
  - rewrite V. unfold bits_value. pose proof (bits_value_bound (zfirst n b) 0 ltac:(lia)) as B. rewrite Lf in B. lia.
Qed.

Lemma zeros_before_inv : forall b n t, zeros_before_one b = Some (n, t) -> 0 <= n /\ b = repeat false (Z.to_nat n) ++ true :: t.
Proof.
  induction b as [|x b IH]; intros n t H; cbn [zeros_before_one] in H; [discriminate|].
  destruct x.
  - assert (n = 0) by congruence. assert (t = b) by congruence. subst. split; [lia|reflexivity].
  - destruct (zeros_before_one b) as [[m u]|] eqn:E; [|discriminate].
    specialize (IH m u eq_refl) as [IH1 IH2].
    assert (n = m + 1) by congruence. assert (u = t) by congruence. subst.
    split; [lia|]. replace (Z.to_nat (m + 1)) with (S (Z.to_nat m)) by lia. reflexivity.
Qed.

Lemma golomb_of : forall n w, 0 <= n -> 0 <= w < 2 ^ n -> golomb (2 ^ n - 1 + w) = repeat false (Z.to_nat n) ++ true :: put (Z.to_nat n) w.
Proof.
  intros n w Hn Hw. unfold golomb. cbv zeta.
  replace (2 ^ n - 1 + w + 1) with (2 ^ n + w) by lia.
  assert (E : Z.log2 (2 ^ n + w) = n) by (apply Z.log2_unique; [lia|]; rewrite Z.pow_succ_r by lia; lia).
  rewrite E. rewrite put_head.
  - rewrite Z2Nat.id by lia. repeat f_equal. lia.
  - rewrite Z2Nat.id by lia. rewrite Z.pow_add_r by lia. change (2 ^ 1) with 2. lia.
Qed.

Lemma ue_inv : forall b v t, ue b = Ok (v, t) -> 0 <= v /\ b = golomb v ++ t.
Proof.
  intros b v t H. unfold ue in H.
  destruct (zeros_before_one b) as [[n u]|] eqn:E; [|discriminate].
  apply zeros_before_inv in E as [Hn E].
  destruct (n =? 0) eqn:Z.
  - assert (v = 0) by congruence. assert (u = t) by congruence. subst.
    replace (Z.to_nat n) with 0%nat by lia. split; [lia|reflexivity].
  - destruct (zlen u <? n) eqn:L; [discriminate|].
    assert (Lf : zlen (zfirst n u) = n) by (rewrite zlen_zfirst by lia; lia).
    assert (V : v = 2 ^ n - 1 + bits_value (zfirst n u)) by congruence.
    assert (T : t = zskip n u) by congruence. subst t.
    pose proof (bits_value_bound (zfirst n u) 0 ltac:(lia)) as B. rewrite Lf in B.
    fold (bits_value (zfirst n u)) in B.
    pose proof (Z.pow_pos_nonneg 2 n ltac:(lia) Hn) as P.
    split; [lia|].
    rewrite V, golomb_of by lia. rewrite E. rewrite <- app_assoc. cbn [app]. do 2 f_equal.
    replace (Z.to_nat n) with (length (zfirst n u)) by (unfold zlen in Lf; lia).
    unfold bits_value. rewrite put_bits_value by lia. symmetry. apply zfirst_zskip.
Qed.

Lemma se_inv : forall b v t, se b = Ok (v, t) -> b = signed v ++ t.
Proof.
  intros b v t H. unfold se, pbind in H.
  destruct (ue b) as [[c u]|] eqn:E; [|discriminate].
  apply ue_inv in E as [Hc E]. unfold pret in H.
  assert (V : v = if c mod 2 =? 0 then - ((c + 1) / 2) else (c + 1) / 2) by congruence.
  assert (T : u = t) by congruence. subst u.
  rewrite E. f_equal. unfold signed. f_equal.
  destruct (c mod 2 =? 0) eqn:M; destruct (0 <? v) eqn:S; lia.
Qed.

(** ** Sequences of elements *)
Lemma write_app : forall a b, write (a ++ b) = write a ++ write b.
Proof. intros. unfold write. apply flat_map_app. Qed.

Lemma bind_ok : forall A B (p : parser A) (f : A -> parser B) b v t, p b = Ok (v, t) -> pbind p f b = f v t.
Proof. intros A B p f b v t H. unfold pbind. rewrite H. reflexivity. Qed.

Lemma read_U : forall B (f : Z -> parser B) n v l t, 0 < n -> 0 <= v < 2 ^ n -> pbind (uint n) f (write (U n v :: l) ++ t) = f v (write l ++ t).
Proof.
  intros B f n v l t Hn Hv. apply bind_ok.
  change (write (U n v :: l)) with (put (Z.to_nat n) v ++ write l). rewrite <- app_assoc. apply uint_put; assumption.
Qed.
Lemma read_F : forall B (f : Z -> parser B) v l t, pbind (uint 1) f (write (F v :: l) ++ t) = f (num v) (write l ++ t).
Proof. intros B f v l t. unfold F. rewrite read_U; [reflexivity|lia|destruct v; cbn; lia]. Qed.
Lemma read_UE : forall B (f : Z -> parser B) v l t, 0 <= v -> pbind ue f (write (UE v :: l) ++ t) = f v (write l ++ t).
Proof.
  intros B f v l t Hv. apply bind_ok.
  change (write (UE v :: l)) with (golomb v ++ write l). rewrite <- app_assoc. apply ue_golomb; assumption.
Qed.
Lemma read_SE : forall B (f : Z -> parser B) v l t, pbind se f (write (SE v :: l) ++ t) = f v (write l ++ t).
Proof.
  intros B f v l t. apply bind_ok.
  change (write (SE v :: l)) with (signed v ++ write l). rewrite <- app_assoc. apply se_signed.
Qed.
Lemma bind_assoc : forall A B C (p : parser A) (f : A -> parser B) (g : B -> parser C) b,
  pbind (pbind p f) g b = pbind p (fun a => pbind (f a) g) b.
Proof. intros. unfold pbind. destruct (p b) as [[a u]|]; reflexivity. Qed.
Lemma bind_ret : forall A B (a : A) (f : A -> parser B) b, pbind (pret a) f b = f a b.
Proof. reflexivity. Qed.
Lemma bind_skip : forall A B (p : parser A) (f : unit -> parser B) b, pbind (skip p) f b = pbind p (fun _ => f tt) b.
Proof. intros. unfold skip, pbind, pret. destruct (p b) as [[a u]|]; reflexivity. Qed.
Lemma bind_check : forall B x (f : unit -> parser B) b, x = false -> pbind (check x) f b = f tt b.
Proof. intros B x f b ->. reflexivity. Qed.
Lemma write_nil : forall t, write [] ++ t = t.
Proof. reflexivity. Qed.
