(** Lemmas about the definitions of [Base]. *)
From Verif Require Import Base.
From Coq Require Import ZifyBool ZifyNat.
Ltac Zify.zify_post_hook ::= Z.div_mod_to_equations.

Lemma zlen_nonneg {A} (l : list A) : 0 <= zlen l.
Proof. unfold zlen; lia. Qed.

Lemma zlen_nil {A} : zlen (@nil A) = 0.
Proof. reflexivity. Qed.

Lemma zlen_cons {A} (x : A) l : zlen (x :: l) = 1 + zlen l.
Proof. unfold zlen; cbn [length]; lia. Qed.

Lemma zlen_app {A} (a b : list A) : zlen (a ++ b) = zlen a + zlen b.
Proof. unfold zlen; rewrite app_length; lia. Qed.

Lemma zlen_map {A B} (f : A -> B) l : zlen (map f l) = zlen l.
Proof. unfold zlen; rewrite map_length; reflexivity. Qed.

Lemma zlen_rev {A} (l : list A) : zlen (rev l) = zlen l.
Proof. unfold zlen; rewrite rev_length; reflexivity. Qed.

Lemma zlen_repeat {A} (x : A) n : zlen (repeat x n) = Z.of_nat n.
Proof. unfold zlen; rewrite repeat_length; reflexivity. Qed.

Lemma zlen_0_nil {A} (l : list A) : zlen l = 0 -> l = [].
Proof. destruct l; [reflexivity|rewrite zlen_cons; pose proof (zlen_nonneg l); lia]. Qed.

Lemma zskip_le0 {A} n (l : list A) : n <= 0 -> zskip n l = l.
Proof. intros H; destruct l; cbn [zskip]; [reflexivity|]. destruct (Z.leb_spec n 0); [reflexivity|lia]. Qed.

Lemma zskip_nil {A} n : zskip n (@nil A) = [].
Proof. reflexivity. Qed.

Lemma zskip_cons {A} n (x : A) l : 0 < n -> zskip n (x :: l) = zskip (n - 1) l.
Proof. intros H; cbn [zskip]. destruct (Z.leb_spec n 0); [lia|reflexivity]. Qed.

Lemma zskip_skipn {A} n (l : list A) : zskip n l = skipn (Z.to_nat n) l.
Proof.
  revert n; induction l as [|x l IH]; intros n; cbn [zskip].
  - now rewrite skipn_nil.
  - destruct (Z.leb_spec n 0).
    + replace (Z.to_nat n) with O by lia. reflexivity.
    + rewrite IH. replace (Z.to_nat n) with (S (Z.to_nat (n - 1))) by lia. reflexivity.
Qed.

Lemma zfirst_firstn {A} n (l : list A) : zfirst n l = firstn (Z.to_nat n) l.
Proof.
  revert n; induction l as [|x l IH]; intros n; cbn [zfirst].
  - now rewrite firstn_nil.
  - destruct (Z.leb_spec n 0).
    + replace (Z.to_nat n) with O by lia. reflexivity.
    + rewrite IH. replace (Z.to_nat n) with (S (Z.to_nat (n - 1))) by lia. reflexivity.
Qed.

Lemma zskip_app {A} (a b : list A) : zskip (zlen a) (a ++ b) = b.
Proof.
  rewrite zskip_skipn; unfold zlen; rewrite Nat2Z.id.
  rewrite skipn_app, skipn_all, Nat.sub_diag; reflexivity.
Qed.

Lemma zfirst_app {A} (a b : list A) : zfirst (zlen a) (a ++ b) = a.
Proof.
  rewrite zfirst_firstn; unfold zlen; rewrite Nat2Z.id.
  rewrite firstn_app, firstn_all, Nat.sub_diag; cbn [firstn]; apply app_nil_r.
Qed.

Lemma zfirst_all {A} n (l : list A) : zlen l <= n -> zfirst n l = l.
Proof. intros H; rewrite zfirst_firstn. apply firstn_all2. unfold zlen in H; lia. Qed.

Lemma zskip_all {A} n (l : list A) : zlen l <= n -> zskip n l = [].
Proof. intros H; rewrite zskip_skipn. apply skipn_all2. unfold zlen in H; lia. Qed.

Lemma zfirst_zskip {A} n (l : list A) : zfirst n l ++ zskip n l = l.
Proof. rewrite zfirst_firstn, zskip_skipn; apply firstn_skipn. Qed.

Lemma zlen_zfirst {A} n (l : list A) : 0 <= n -> zlen (zfirst n l) = Z.min n (zlen l).
Proof. intros H; rewrite zfirst_firstn; unfold zlen; rewrite firstn_length; lia. Qed.

Lemma zlen_zskip {A} n (l : list A) : 0 <= n -> zlen (zskip n l) = Z.max 0 (zlen l - n).
Proof. intros H; rewrite zskip_skipn; unfold zlen; rewrite skipn_length; lia. Qed.

Lemma zskip_zskip {A} n m (l : list A) : 0 <= n -> 0 <= m -> zskip n (zskip m l) = zskip (m + n) l.
Proof.
  intros Hn Hm; rewrite !zskip_skipn.
  replace (Z.to_nat (m + n)) with (Z.to_nat n + Z.to_nat m)%nat by lia.
  revert l; generalize (Z.to_nat n) as a, (Z.to_nat m) as b; intros a b.
  induction b as [|b IH]; intros l.
  - now rewrite Nat.add_0_r.
  - rewrite Nat.add_succ_r. destruct l; cbn [skipn]; [now rewrite skipn_nil|apply IH].
Qed.

Lemma zskip_app_le {A} n (a b : list A) : 0 <= n <= zlen a -> zskip n (a ++ b) = zskip n a ++ b.
Proof.
  intros H; rewrite !zskip_skipn, skipn_app.
  replace (Z.to_nat n - length a)%nat with O by (unfold zlen in H; lia). reflexivity.
Qed.

Lemma zskip_app_ge {A} n (a b : list A) : zlen a <= n -> zskip n (a ++ b) = zskip (n - zlen a) b.
Proof.
  intros H; rewrite !zskip_skipn, skipn_app.
  rewrite skipn_all2 by (unfold zlen in H; lia). cbn [app].
  f_equal. unfold zlen; lia.
Qed.

Lemma zfirst_app_le {A} n (a b : list A) : n <= zlen a -> zfirst n (a ++ b) = zfirst n a.
Proof.
  intros H; rewrite !zfirst_firstn, firstn_app.
  replace (Z.to_nat n - length a)%nat with O by (unfold zlen in H; lia).
  cbn [firstn]; apply app_nil_r.
Qed.

Lemma zfirst_app_ge {A} n (a b : list A) : zlen a <= n -> zfirst n (a ++ b) = a ++ zfirst (n - zlen a) b.
Proof.
  intros H; rewrite !zfirst_firstn, firstn_app.
  rewrite firstn_all2 by (unfold zlen in H; lia). f_equal.
  f_equal. unfold zlen; lia.
Qed.

Lemma zlist_eqb_refl l : zlist_eqb l l = true.
Proof. induction l; cbn [zlist_eqb]; [reflexivity|]. now rewrite Z.eqb_refl. Qed.

Lemma zlist_eqb_eq a b : zlist_eqb a b = true <-> a = b.
Proof.
  revert b; induction a as [|x a IH]; destruct b as [|y b]; cbn [zlist_eqb]; try (split; [discriminate|discriminate]).
  - tauto.
  - rewrite andb_true_iff, Z.eqb_eq, IH. split; [intros [-> ->]; reflexivity|intros E; injection E; auto].
Qed.

Lemma zlist_eqb_neq a b : zlist_eqb a b = false <-> a <> b.
Proof.
  rewrite <- zlist_eqb_eq. destruct (zlist_eqb a b); split; congruence.
Qed.

Lemma bytes_ok_app a b : bytes_ok (a ++ b) <-> bytes_ok a /\ bytes_ok b.
Proof. apply Forall_app. Qed.

Lemma bytes_ok_zskip n l : bytes_ok l -> bytes_ok (zskip n l).
Proof.
  revert n; induction l as [|x l IH]; intros n H; cbn [zskip]; [constructor|].
  destruct (n <=? 0); [exact H|]. inversion H; subst. now apply IH.
Qed.

Lemma bytes_ok_zfirst n l : bytes_ok l -> bytes_ok (zfirst n l).
Proof.
  revert n; induction l as [|x l IH]; intros n H; cbn [zfirst]; [constructor|].
  destruct (n <=? 0); [constructor|]. inversion H; subst. constructor; [assumption|now apply IH].
Qed.

Lemma bytes_ok_zeros n : bytes_ok (zeros n).
Proof. unfold zeros, bytes_ok. induction n; cbn; constructor; [unfold byte_ok; lia|assumption]. Qed.
