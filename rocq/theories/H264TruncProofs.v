(** Proofs about the parsers of H264.v on input that is cut short: they give the same value, or miss bits. *)
From Coq Require Import Lia ZifyBool ZifyNat.
From Verif Require Import Base BaseProofs PatternTime Wrap H264.
Ltac Zify.zify_post_hook ::= Z.div_mod_to_equations.

Definition fueled {A} (p : parser A) : Prop := forall b, p b <> Err EFuel.
Definition cuttable {A} (p : parser A) : Prop := forall b m v t, p (b ++ m) = Ok (v, t) ->
  (exists t', p b = Ok (v, t') /\ t = t' ++ m) \/ p b = Err ERead.
Definition eats {A} (p : parser A) : Prop := forall b v t, p b = Ok (v, t) -> (length t < length b)%nat.
Definition shrinks {A} (p : parser A) : Prop := forall b v t, p b = Ok (v, t) -> (length t <= length b)%nat.
Definition tame {A} (p : parser A) : Prop := fueled p /\ cuttable p.

Lemma tame_ret : forall A (a : A), tame (pret a).
Proof.
  intros A a. split; [intros b; discriminate|]. intros b m v t H. left. exists b. unfold pret in *.
  assert (v = a) by congruence. assert (t = b ++ m) by congruence. subst. split; reflexivity.
Qed.
Lemma tame_fail : forall A e, e <> EFuel -> tame (@pfail A e).
Proof. intros A e He. split; [intros b H; unfold pfail in H; congruence|]. intros b m v t H. discriminate. Qed.
Lemma tame_bind : forall A B (p : parser A) (f : A -> parser B), tame p -> (forall a, tame (f a)) -> tame (pbind p f).
Proof.
  intros A B p f [P1 P2] F. split.
  - intros b. unfold pbind. destruct (p b) as [[a t]|e] eqn:E; [apply (proj1 (F a))|]. intros H. apply (P1 b). congruence.
  - intros b m v t H. unfold pbind in *. destruct (p (b ++ m)) as [[a u]|e] eqn:E; [|discriminate].
    destruct (P2 b m a u E) as [(u' & E' & ->)|E']; rewrite E'; [|right; reflexivity].
    apply (proj2 (F a)). exact H.
Qed.
Lemma tame_if : forall A (c : bool) (p q : parser A), tame p -> tame q -> tame (if c then p else q).
Proof. intros A [|] p q Hp Hq; assumption. Qed.
Lemma tame_check : forall c, tame (check c).
Proof. intros c. unfold check. apply tame_if; [apply tame_fail; discriminate|apply tame_ret]. Qed.

Lemma tame_uint : forall n, 0 <= n -> tame (uint n).
Proof.
  intros n Hn. split.
  - intros b. unfold uint. destruct (n =? 0); [discriminate|]. destruct (zlen b <? n); discriminate.
  - intros b m v t H. unfold uint in *. destruct (n =? 0) eqn:Z; [discriminate|].
    rewrite zlen_app in H. pose proof (zlen_nonneg m).
    destruct (zlen b <? n) eqn:L; [right; reflexivity|]. left.
    destruct (zlen b + zlen m <? n) eqn:L2; [lia|].
    rewrite zfirst_app_le in H by lia. rewrite zskip_app_le in H by lia.
    exists (zskip n b). inversion H. split; reflexivity.
Qed.

Lemma zeros_before_app : forall b m, zeros_before_one (b ++ m) =
  match zeros_before_one b with Some (n, t) => Some (n, t ++ m) | None => match zeros_before_one m with Some (n, t) => Some (zlen b + n, t) | None => None end end.
Proof.
  induction b as [|x b IH]; intros m.
  - cbn [app zeros_before_one]. change (zlen (@nil bool)) with 0. destruct (zeros_before_one m) as [[n t]|]; reflexivity.
  - cbn [app zeros_before_one]. destruct x; [reflexivity|]. rewrite IH.
    destruct (zeros_before_one b) as [[n t]|]; [reflexivity|].
    destruct (zeros_before_one m) as [[n t]|]; [|reflexivity]. rewrite zlen_cons. f_equal. f_equal. lia.
Qed.

Lemma zeros_before_len : forall b n t, zeros_before_one b = Some (n, t) -> 0 <= n /\ (length t < length b)%nat.
Proof.
  induction b as [|x b IH]; intros n t H; cbn [zeros_before_one] in H; [discriminate|].
  destruct x.
  - assert (n = 0) by congruence. assert (t = b) by congruence. subst. cbn [length]. lia.
  - destruct (zeros_before_one b) as [[k u]|]; [|discriminate]. specialize (IH k u eq_refl).
    assert (n = k + 1) by congruence. assert (t = u) by congruence. subst. cbn [length]. lia.
Qed.

Lemma tame_ue : tame ue.
Proof.
  split.
  - intros b. unfold ue. destruct (zeros_before_one b) as [[n t]|]; [|discriminate].
    destruct (n =? 0); [discriminate|]. destruct (zlen t <? n); discriminate.
  - intros b m v t H. unfold ue in *. rewrite zeros_before_app in H.
    destruct (zeros_before_one b) as [[n u]|] eqn:E; [|right; reflexivity].
    apply zeros_before_len in E as [Hn _].
    destruct (n =? 0) eqn:Z.
    + left. exists u. inversion H. split; reflexivity.
    + rewrite zlen_app in H. pose proof (zlen_nonneg m).
      destruct (zlen u <? n) eqn:L; [right; reflexivity|]. left.
      destruct (zlen u + zlen m <? n) eqn:L2; [lia|].
      rewrite zfirst_app_le in H by lia. rewrite zskip_app_le in H by lia.
      exists (zskip n u). inversion H. split; reflexivity.
Qed.

Lemma tame_se : tame se.
Proof. unfold se. apply tame_bind; [apply tame_ue|intros a; apply tame_ret]. Qed.
Lemma tame_skip : forall A (p : parser A), tame p -> tame (skip p).
Proof. intros A p H. unfold skip. apply tame_bind; [exact H|intros a; apply tame_ret]. Qed.

Lemma eats_uint : forall n, 0 <= n -> eats (uint n).
Proof.
  intros n Hn b v t H. unfold uint in H. destruct (n =? 0) eqn:Z; [discriminate|].
  destruct (zlen b <? n) eqn:L; [discriminate|].
  assert (T : t = zskip n b) by congruence. pose proof (zlen_zskip n b Hn) as E. rewrite <- T in E. unfold zlen in *. lia.
Qed.
Lemma eats_ue : eats ue.
Proof.
  intros b v t H. unfold ue in H. destruct (zeros_before_one b) as [[n u]|] eqn:E; [|discriminate].
  apply zeros_before_len in E as [Hn L].
  destruct (n =? 0) eqn:Z.
  - assert (t = u) by congruence. subst. exact L.
  - destruct (zlen u <? n) eqn:L2; [discriminate|]. assert (T : t = zskip n u) by congruence.
    pose proof (zlen_zskip n u Hn) as E. rewrite <- T in E. unfold zlen in *. lia.
Qed.
Lemma eats_shrinks : forall A (p : parser A), eats p -> shrinks p.
Proof. intros A p H b v t E. specialize (H b v t E). lia. Qed.
Lemma shrinks_ret : forall A (a : A), shrinks (pret a).
Proof. intros A a b v t H. unfold pret in H. assert (t = b) by congruence. subst. lia. Qed.
Lemma eats_bind : forall A B (p : parser A) (f : A -> parser B), eats p -> (forall a, shrinks (f a)) -> eats (pbind p f).
Proof.
  intros A B p f P F b v t H. unfold pbind in H. destruct (p b) as [[a u]|] eqn:E; [|discriminate].
  specialize (P b a u E). specialize (F a u v t H). lia.
Qed.
Lemma eats_se : eats se.
Proof. unfold se. apply eats_bind; [apply eats_ue|intros a; apply shrinks_ret]. Qed.
Lemma eats_skip : forall A (p : parser A), eats p -> eats (skip p).
Proof. intros A p H. unfold skip. apply eats_bind; [exact H|intros a; apply shrinks_ret]. Qed.

Lemma times_irrelevant : forall p, eats p -> forall f g n b, (length b < f)%nat -> (length b < g)%nat -> times f n p b = times g n p b.
Proof.
  intros p Hp. induction f as [|f IH]; intros g n b Hf Hg; [lia|].
  destruct g as [|g]; [lia|]. cbn [times]. destruct (n <=? 0); [reflexivity|].
  unfold pbind. destruct (p b) as [[a t]|] eqn:E; [|reflexivity]. specialize (Hp b a t E). apply IH; lia.
Qed.

Lemma times_fueled : forall p, fueled p -> eats p -> forall f n b, (length b < f)%nat -> times f n p b <> Err EFuel.
Proof.
  intros p F Hp. induction f as [|f IH]; intros n b Hf; [lia|].
  cbn [times]. destruct (n <=? 0); [discriminate|].
  unfold pbind. destruct (p b) as [[a t]|e] eqn:E.
  - specialize (Hp b a t E). apply IH. lia.
  - intros H. apply (F b). congruence.
Qed.

Lemma times_cut : forall p, cuttable p -> eats p -> forall f n b m v t, (length b < f)%nat -> times f n p (b ++ m) = Ok (v, t) ->
  (exists t', times f n p b = Ok (v, t') /\ t = t' ++ m) \/ times f n p b = Err ERead.
Proof.
  intros p C Hp. induction f as [|f IH]; intros n b m v t Hf H; [lia|].
  cbn [times] in *. destruct (n <=? 0).
  - left. exists b. unfold pret in *. inversion H. split; reflexivity.
  - unfold pbind in *. destruct (p (b ++ m)) as [[a u]|] eqn:E; [|discriminate].
    destruct (C b m a u E) as [(u' & E' & ->)|E']; rewrite E'; [|right; reflexivity].
    specialize (Hp b a u' E'). apply IH; [lia|exact H].
Qed.

Lemma tame_repeat : forall n p, tame p -> eats p -> tame (repeat_read n p).
Proof.
  intros n p [F C] Hp. split.
  - intros b. unfold repeat_read. apply times_fueled; [exact F|exact Hp|lia].
  - intros b m v t H. unfold repeat_read in *.
    rewrite (times_irrelevant p Hp (S (length b)) (S (length (b ++ m))) n b); [|lia|rewrite app_length; lia].
    apply (times_cut p C Hp (S (length (b ++ m))) n b m v t); [rewrite app_length; lia|exact H].
Qed.

Ltac tame :=
  repeat first [ apply tame_bind; [|intros ?] | apply tame_ret | apply tame_ue | apply tame_se | apply tame_check
               | apply tame_skip | apply tame_if | (apply tame_uint; lia) ].

Lemma tame_scaling_list : forall n last next, tame (scaling_list n last next).
Proof. induction n as [|n IH]; intros last next; cbn [scaling_list]; [apply tame_ret|]. tame. apply IH. Qed.
Lemma tame_scaling_lists : forall n i, tame (scaling_lists i n).
Proof. induction n as [|n IH]; intros i; cbn [scaling_lists]; [apply tame_ret|]. tame; try apply IH; apply tame_scaling_list. Qed.
Lemma tame_chroma : forall p, tame (parse_chroma p).
Proof. intros p. unfold parse_chroma. tame. apply tame_scaling_lists. Qed.
Lemma tame_poc : tame parse_poc.
Proof. unfold parse_poc. tame. apply tame_repeat; [tame|]. apply eats_skip, eats_se. Qed.
Lemma tame_crop : tame parse_crop.
Proof. unfold parse_crop. tame. Qed.
Lemma tame_vui : tame parse_vui.
Proof. unfold parse_vui, parse_aspect, parse_signal, parse_timing. tame. Qed.

Local Opaque parse_chroma parse_poc parse_crop parse_vui.

Lemma tame_sps : tame parse_sps.
Proof.
  unfold parse_sps.
  tame; try apply tame_chroma; try apply tame_poc; try apply tame_crop; try apply tame_vui;
  repeat match goal with |- tame (match ?x with _ => _ end) => destruct x end; apply tame_ret.
Qed.

Lemma bits_required_nonneg : forall n v, 0 <= bits_required n v.
Proof. induction n as [|n IH]; intros v; cbn [bits_required]; [lia|]. destruct (Z.testbit v (Z.of_nat (S n))); [lia|apply IH]. Qed.

Lemma tame_groups : forall n, tame (parse_groups n).
Proof.
  intros n. unfold parse_groups. tame.
  - apply tame_repeat; [tame|]. apply eats_skip, eats_ue.
  - apply tame_repeat; [tame|]. apply eats_bind; [apply eats_ue|]. intros a0. apply eats_shrinks, eats_skip, eats_ue.
  - pose proof (bits_required_nonneg 63 (a0 + 1)) as B. apply tame_repeat; [tame|]. apply eats_skip, eats_uint. exact B.
Qed.

Local Opaque parse_groups.

Lemma tame_pps : tame parse_pps.
Proof. unfold parse_pps. tame. apply tame_groups. Qed.

Lemma tame_lift : forall A (r : res A), r <> Err EFuel -> tame (plift r).
Proof.
  intros A r Hr. unfold plift. destruct r as [a|e].
  - apply (tame_ret A a).
  - split; [intros b H; congruence|intros b m v t H; discriminate].
Qed.

(** The lengths that the parser reads with are not negative. *)
Definition sets_ok (ps : param_sets) : Prop :=
  Forall (fun x => 0 <= log2_max_frame_num_minus4 (snd x) /\ 0 <= log2_max_pic_order_cnt_lsb_minus4 (snd x)) (sps_sets ps).

Lemma dget_in : forall A k (d : list (Z * A)) v, dget k d = Some v -> In (k, v) d.
Proof.
  intros A k. induction d as [|[k' w] d IH]; intros v H; cbn [dget] in H; [discriminate|].
  destruct (k =? k') eqn:E.
  - left. assert (k = k') by lia. congruence.
  - right. apply IH. exact H.
Qed.

Lemma active_ok : forall ps id p s, sets_ok ps -> active ps id = Ok (p, s) ->
  0 <= log2_max_frame_num_minus4 s /\ 0 <= log2_max_pic_order_cnt_lsb_minus4 s.
Proof.
  intros ps id p s K H. unfold active in H. destruct (dget id (pps_sets ps)) as [p'|]; [|discriminate].
  destruct (dget (pps_sps_id p') (sps_sets ps)) as [s'|] eqn:E; [|discriminate].
  apply dget_in in E. unfold sets_ok in K. rewrite Forall_forall in K. specialize (K _ E). cbn [snd] in K.
  assert (s' = s) by congruence. subst. exact K.
Qed.

Lemma active_err : forall ps id e, active ps id = Err e -> e = EValue.
Proof.
  intros ps id e H. unfold active in H. destruct (dget id (pps_sets ps)) as [p|]; [|congruence].
  destruct (dget (pps_sps_id p) (sps_sets ps)); congruence.
Qed.

Lemma tame_slice : forall ps, sets_ok ps -> tame (parse_slice_header ps).
Proof.
  intros ps K. unfold parse_slice_header.
  apply tame_bind; [tame|intros ?]. apply tame_bind; [tame|intros ?]. apply tame_bind; [tame|intros ?].
  apply tame_bind; [tame|intros ?]. apply tame_bind; [tame|intros ?]. apply tame_bind; [tame|intros id].
  destruct (active ps id) as [[p s]|e] eqn:E.
  - destruct (active_ok ps id p s K E) as [K1 K2].
    split.
    + intros b. unfold plift, pbind at 1. cbn [fst snd].
      match goal with |- ?q b <> _ => assert (T : tame q) by tame; apply (proj1 T) end.
    + intros b m v t. unfold plift, pbind at 1. unfold pbind at 12. cbn [fst snd].
      match goal with |- ?q (b ++ m) = _ -> _ => assert (T : tame q) by tame; apply (proj2 T) end.
  - apply active_err in E as ->. split; [intros b H; discriminate|intros b m v t H; discriminate].
Qed.

Lemma fueled_bind : forall A B (p : parser A) (f : A -> parser B), fueled p -> (forall a, fueled (f a)) -> fueled (pbind p f).
Proof.
  intros A B p f P F b. unfold pbind. destruct (p b) as [[a t]|e] eqn:E; [apply (F a)|]. intros H. apply (P b). congruence.
Qed.
Lemma fueled_uint : forall n, fueled (uint n).
Proof. intros n b. unfold uint. destruct (n =? 0); [discriminate|]. destruct (zlen b <? n); discriminate. Qed.
Lemma fueled_ret : forall A (a : A), fueled (pret a).
Proof. intros A a b. discriminate. Qed.
Lemma fueled_if : forall A (c : bool) (p q : parser A), fueled p -> fueled q -> fueled (if c then p else q).
Proof. intros A [|] p q Hp Hq; assumption. Qed.
Lemma fueled_slice : forall ps, fueled (parse_slice_header ps).
Proof.
  intros ps. unfold parse_slice_header.
  assert (L : forall id, fueled (plift (active ps id))).
  { intros id b H. unfold plift in H. destruct (active ps id) as [x|e] eqn:E; [discriminate H|].
    apply active_err in E. subst e. discriminate H. }
  repeat first [ apply fueled_bind; [|intros ?] | apply fueled_ret | apply fueled_uint | apply (proj1 tame_ue) | apply (proj1 tame_se)
               | apply fueled_if | apply L ].
Qed.
