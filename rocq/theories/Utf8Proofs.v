From Verif Require Import Base BaseProofs Utf8.
From Coq Require Import ZifyBool ZifyNat.
Ltac Zify.zify_post_hook ::= Z.div_mod_to_equations.

Lemma scalarb_spec c : scalarb c = true <-> scalar c.
Proof. unfold scalarb, scalar; lia. Qed.

Ltac dif := match goal with |- context [if ?b then _ else _] => destruct b eqn:? end.

Lemma utf8_dec_enc1 c t : scalar c -> utf8_dec (utf8_enc1 c ++ t) = ocons c (utf8_dec t).
Proof.
  intros Hc. unfold utf8_enc1, scalar in *.
  destruct (c <? 128) eqn:H1.
  - cbn [app utf8_dec]. rewrite H1. reflexivity.
  - destruct (c <? 2048) eqn:H2.
    + cbn [app utf8_dec].
      replace (192 + c / 64 <? 128) with false by lia.
      replace (192 + c / 64 <? 192) with false by lia.
      replace (192 + c / 64 <? 224) with true by lia.
      cbv zeta.
      replace ((192 + c / 64 - 192) * 64 + (128 + c mod 64 - 128)) with c by lia.
      unfold is_cont.
      replace ((128 <=? 128 + c mod 64) && (128 + c mod 64 <? 192) && (128 <=? c)) with true by lia.
      reflexivity.
    + destruct (c <? 65536) eqn:H3.
      * cbn [app utf8_dec].
        replace (224 + c / 4096 <? 128) with false by lia.
        replace (224 + c / 4096 <? 192) with false by lia.
        replace (224 + c / 4096 <? 224) with false by lia.
        replace (224 + c / 4096 <? 240) with true by lia.
        cbv zeta.
        replace ((224 + c / 4096 - 224) * 4096 + (128 + (c / 64) mod 64 - 128) * 64 + (128 + c mod 64 - 128))
          with c by lia.
        unfold is_cont.
        replace (scalarb c) with true by (symmetry; apply scalarb_spec; unfold scalar; lia).
        replace ((128 <=? 128 + (c / 64) mod 64) && (128 + (c / 64) mod 64 <? 192) &&
                 ((128 <=? 128 + c mod 64) && (128 + c mod 64 <? 192)) && (2048 <=? c) && true)
          with true by lia.
        reflexivity.
      * cbn [app utf8_dec].
        replace (240 + c / 262144 <? 128) with false by lia.
        replace (240 + c / 262144 <? 192) with false by lia.
        replace (240 + c / 262144 <? 224) with false by lia.
        replace (240 + c / 262144 <? 240) with false by lia.
        replace (240 + c / 262144 <? 248) with true by lia.
        cbv zeta.
        replace ((240 + c / 262144 - 240) * 262144 + (128 + (c / 4096) mod 64 - 128) * 4096 +
                 (128 + (c / 64) mod 64 - 128) * 64 + (128 + c mod 64 - 128))
          with c by lia.
        unfold is_cont.
        replace ((128 <=? 128 + (c / 4096) mod 64) && (128 + (c / 4096) mod 64 <? 192) &&
                 ((128 <=? 128 + (c / 64) mod 64) && (128 + (c / 64) mod 64 <? 192)) &&
                 ((128 <=? 128 + c mod 64) && (128 + c mod 64 <? 192)) && (65536 <=? c) && (c <? 1114112))
          with true by lia.
        reflexivity.
Qed.

Lemma utf8_dec_enc s t : str_ok s -> utf8_dec (utf8_enc s ++ t) =
  match utf8_dec t with Some u => Some (s ++ u) | None => None end.
Proof.
  intros H; induction H as [|c s Hc Hs IH]; cbn [utf8_enc app].
  - destruct (utf8_dec t); reflexivity.
  - rewrite <- app_assoc, utf8_dec_enc1 by assumption. rewrite IH.
    destruct (utf8_dec t); reflexivity.
Qed.

Theorem utf8_roundtrip s : str_ok s -> utf8_dec (utf8_enc s) = Some s.
Proof. intros H. rewrite <- (app_nil_r (utf8_enc s)), utf8_dec_enc by assumption. cbn. now rewrite app_nil_r. Qed.

Lemma utf8_enc1_ok c : scalar c -> bytes_ok (utf8_enc1 c).
Proof.
  intros H; unfold utf8_enc1, scalar, bytes_ok, byte_ok in *.
  destruct (c <? 128) eqn:?; [repeat constructor; lia|].
  destruct (c <? 2048) eqn:?; [repeat constructor; lia|].
  destruct (c <? 65536) eqn:?; repeat constructor; lia.
Qed.

Lemma utf8_enc_ok s : str_ok s -> bytes_ok (utf8_enc s).
Proof.
  intros H; induction H; cbn [utf8_enc]; [constructor|].
  apply bytes_ok_app; split; [now apply utf8_enc1_ok|assumption].
Qed.

Lemma utf8_enc_app a b : utf8_enc (a ++ b) = utf8_enc a ++ utf8_enc b.
Proof. induction a; cbn [utf8_enc app]; [reflexivity|]. now rewrite IHa, app_assoc. Qed.

(** Decoding is injective: the only bytes decoding to [s] are its encoding. *)
Lemma ocons_some c o s : ocons c o = Some s -> exists t, o = Some t /\ s = c :: t.
Proof. destruct o; cbn [ocons]; [intros E; injection E as <-; eauto|discriminate]. Qed.

Lemma utf8_dec_canon_aux n : forall l s, (length l <= n)%nat -> bytes_ok l -> utf8_dec l = Some s ->
  utf8_enc s = l /\ str_ok s.
Proof.
  induction n as [|n IH]; intros l s Hn Hok H.
  - destruct l; cbn [length] in Hn; [|lia]. injection H as <-. split; [reflexivity|constructor].
  - destruct l as [|b0 t]; [injection H as <-; split; [reflexivity|constructor]|].
    inversion Hok as [|? ? Hb0 Ht]; subst. cbn [length] in Hn. cbn [utf8_dec] in H.
    unfold byte_ok in Hb0.
    destruct (b0 <? 128) eqn:E1.
    { apply ocons_some in H as (u & Hu & ->). apply IH in Hu as [<- Hs]; [|lia|assumption].
      split; [|constructor; [unfold scalar; lia|assumption]].
      cbn [utf8_enc]; unfold utf8_enc1. rewrite E1. reflexivity. }
    destruct (b0 <? 192) eqn:E2; [discriminate|].
    destruct (b0 <? 224) eqn:E3.
    { destruct t as [|b1 t1]; [discriminate|].
      inversion Ht as [|? ? Hb1 Ht1]; subst. unfold byte_ok in Hb1. cbn [length] in Hn.
      cbv zeta in H. set (c := (b0 - 192) * 64 + (b1 - 128)) in *.
      destruct (is_cont b1 && (128 <=? c)) eqn:E; [|discriminate]. unfold is_cont in E.
      apply ocons_some in H as (u & Hu & ->). apply IH in Hu as [<- Hs]; [|lia|assumption].
      split; [|constructor; [unfold scalar; subst c; lia|assumption]].
      cbn [utf8_enc]; unfold utf8_enc1.
      replace (c <? 128) with false by lia. replace (c <? 2048) with true by (subst c; lia).
      replace (192 + c / 64) with b0 by (subst c; lia).
      replace (128 + c mod 64) with b1 by (subst c; lia). reflexivity. }
    destruct (b0 <? 240) eqn:E4.
    { destruct t as [|b1 [|b2 t2]]; try discriminate.
      inversion Ht as [|? ? Hb1 Ht1]; subst. inversion Ht1 as [|? ? Hb2 Ht2]; subst.
      unfold byte_ok in Hb1, Hb2. cbn [length] in Hn.
      cbv zeta in H. set (c := (b0 - 224) * 4096 + (b1 - 128) * 64 + (b2 - 128)) in *.
      destruct (is_cont b1 && is_cont b2 && (2048 <=? c) && scalarb c) eqn:E; [|discriminate].
      unfold is_cont in E.
      assert (Hsc : scalar c) by (apply scalarb_spec; apply andb_true_iff in E; tauto).
      apply ocons_some in H as (u & Hu & ->). apply IH in Hu as [<- Hs]; [|lia|assumption].
      split; [|constructor; assumption].
      cbn [utf8_enc]; unfold utf8_enc1.
      replace (c <? 128) with false by lia. replace (c <? 2048) with false by lia.
      replace (c <? 65536) with true by (subst c; lia).
      assert (b1 - 128 < 64 /\ 0 <= b1 - 128 /\ b2 - 128 < 64 /\ 0 <= b2 - 128) as Hr by lia.
      replace (224 + c / 4096) with b0 by (subst c; lia).
      replace (128 + (c / 64) mod 64) with b1 by (subst c; lia).
      replace (128 + c mod 64) with b2 by (subst c; lia). reflexivity. }
    destruct (b0 <? 248) eqn:E5; [|discriminate].
    destruct t as [|b1 [|b2 [|b3 t3]]]; try discriminate.
    inversion Ht as [|? ? Hb1 Ht1]; subst. inversion Ht1 as [|? ? Hb2 Ht2]; subst.
    inversion Ht2 as [|? ? Hb3 Ht3]; subst.
    unfold byte_ok in Hb1, Hb2, Hb3. cbn [length] in Hn.
    cbv zeta in H. set (c := (b0 - 240) * 262144 + (b1 - 128) * 4096 + (b2 - 128) * 64 + (b3 - 128)) in *.
    destruct (is_cont b1 && is_cont b2 && is_cont b3 && (65536 <=? c) && (c <? 1114112)) eqn:E; [|discriminate].
    unfold is_cont in E.
    apply ocons_some in H as (u & Hu & ->). apply IH in Hu as [<- Hs]; [|lia|assumption].
    split; [|constructor; [unfold scalar; lia|assumption]].
    cbn [utf8_enc]; unfold utf8_enc1.
    replace (c <? 128) with false by lia. replace (c <? 2048) with false by lia.
    replace (c <? 65536) with false by lia.
    assert (b1 - 128 < 64 /\ 0 <= b1 - 128 /\ b2 - 128 < 64 /\ 0 <= b2 - 128 /\
            b3 - 128 < 64 /\ 0 <= b3 - 128) as Hr by lia.
    replace (240 + c / 262144) with b0 by (subst c; lia).
    replace (128 + (c / 4096) mod 64) with b1 by (subst c; lia).
    replace (128 + (c / 64) mod 64) with b2 by (subst c; lia).
    replace (128 + c mod 64) with b3 by (subst c; lia). reflexivity.
Qed.

Theorem utf8_canonical l s : bytes_ok l -> utf8_dec l = Some s -> utf8_enc s = l /\ str_ok s.
Proof. intros; eapply utf8_dec_canon_aux; eauto. Qed.

Lemma utf8_enc1_len c : 1 <= zlen (utf8_enc1 c) <= 4.
Proof.
  unfold utf8_enc1. destruct (c <? 128); [cbn; lia|]. destruct (c <? 2048); [cbn; lia|].
  destruct (c <? 65536); cbn; lia.
Qed.

Lemma zfirst_2_1 {A} (a b : A) : zfirst 1 [a; b] = [a].
Proof. reflexivity. Qed.
Lemma zfirst_3_1 {A} (a b c : A) : zfirst 1 [a; b; c] = [a].
Proof. reflexivity. Qed.
Lemma zfirst_3_2 {A} (a b c : A) : zfirst 2 [a; b; c] = [a; b].
Proof. reflexivity. Qed.
Lemma zfirst_4_1 {A} (a b c d : A) : zfirst 1 [a; b; c; d] = [a].
Proof. reflexivity. Qed.
Lemma zfirst_4_2 {A} (a b c d : A) : zfirst 2 [a; b; c; d] = [a; b].
Proof. reflexivity. Qed.
Lemma zfirst_4_3 {A} (a b c d : A) : zfirst 3 [a; b; c; d] = [a; b; c].
Proof. reflexivity. Qed.

Lemma utf8_dec_prefix_none c k : scalar c -> 0 < k < zlen (utf8_enc1 c) ->
  utf8_dec (zfirst k (utf8_enc1 c)) = None.
Proof.
  intros Hc Hk. unfold utf8_enc1, scalar in *.
  destruct (c <? 128) eqn:H1; [cbn in Hk; lia|].
  destruct (c <? 2048) eqn:H2.
  { unfold zlen in Hk; cbn [length] in Hk. assert (k = 1) as -> by lia.
    rewrite zfirst_2_1. cbn [utf8_dec].
    replace (192 + c / 64 <? 128) with false by lia.
    replace (192 + c / 64 <? 192) with false by lia.
    replace (192 + c / 64 <? 224) with true by lia. reflexivity. }
  destruct (c <? 65536) eqn:H3.
  { unfold zlen in Hk; cbn [length] in Hk.
    assert (k = 1 \/ k = 2) as [-> | ->] by lia; rewrite ?zfirst_3_1, ?zfirst_3_2;
    cbn [utf8_dec];
    replace (224 + c / 4096 <? 128) with false by lia;
    replace (224 + c / 4096 <? 192) with false by lia;
    replace (224 + c / 4096 <? 224) with false by lia;
    replace (224 + c / 4096 <? 240) with true by lia; reflexivity. }
  unfold zlen in Hk; cbn [length] in Hk.
  assert (k = 1 \/ k = 2 \/ k = 3) as [-> | [-> | ->]] by lia;
  rewrite ?zfirst_4_1, ?zfirst_4_2, ?zfirst_4_3;
  cbn [utf8_dec];
  replace (240 + c / 262144 <? 128) with false by lia;
  replace (240 + c / 262144 <? 192) with false by lia;
  replace (240 + c / 262144 <? 224) with false by lia;
  replace (240 + c / 262144 <? 240) with false by lia;
  replace (240 + c / 262144 <? 248) with true by lia; reflexivity.
Qed.

(** Cutting an encoded string strictly inside a character makes it undecodable. *)
Theorem utf8_cut_mid s1 c s2 k : str_ok s1 -> scalar c -> 0 < k < zlen (utf8_enc1 c) ->
  utf8_dec (zfirst (zlen (utf8_enc s1) + k) (utf8_enc (s1 ++ c :: s2))) = None.
Proof.
  intros H1 Hc Hk. rewrite utf8_enc_app. cbn [utf8_enc].
  rewrite zfirst_app_ge by (pose proof (zlen_nonneg (utf8_enc s1)); lia).
  replace (zlen (utf8_enc s1) + k - zlen (utf8_enc s1)) with k by lia.
  rewrite zfirst_app_le by lia.
  rewrite utf8_dec_enc by assumption.
  rewrite utf8_dec_prefix_none by auto. reflexivity.
Qed.
