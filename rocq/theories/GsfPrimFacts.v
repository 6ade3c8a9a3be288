(** Facts about single fields, in the vocabulary of GsfSpec. *)
From Verif Require Import Base BaseProofs Utf8 Utf8Proofs GsfPrim GsfPrimProofs GsfBlock GsfBlockProofs
  GsfDecode CogEnums GsfEncode GsfSpec GsfCodecProofs.
From Coq Require Import ZifyBool ZifyNat.
Ltac Zify.zify_post_hook ::= Z.div_mod_to_equations.

Lemma At_mid pre l base s w : At (mkFile (pre ++ l) base s w) (zlen pre) l.
Proof.
  split; cbn [f_data]; [rewrite zlen_app; pose proof (zlen_nonneg pre); pose proof (zlen_nonneg l); lia|].
  apply zskip_app.
Qed.

Lemma Parses_reads_back {A} (m : rd A) enc v : Parses m enc v -> reads_back m enc v.
Proof. intros H pre rest base s w. eapply H. apply At_mid. Qed.

Lemma reads_back_fun {A} (m : rd A) enc v w : reads_back m enc v -> reads_back m enc w -> v = w.
Proof. intros H1 H2. specialize (H1 [] [] 0 false false). specialize (H2 [] [] 0 false false). congruence. Qed.

Lemma uint_reads_back n v : (0 < n)%nat ->
  reads_back (read_uint (Z.of_nat n)) (enc_uint n v) (v mod 256 ^ Z.of_nat n).
Proof. intros _. apply Parses_reads_back, Parses_uint_mod. Qed.

Lemma uint_exact n v : (0 < n)%nat ->
  reads_back (read_uint (Z.of_nat n)) (enc_uint n v) v <-> 0 <= v < 256 ^ Z.of_nat n.
Proof.
  intros Hn. assert (0 < 256 ^ Z.of_nat n) by (apply Z.pow_pos_nonneg; lia). split; intros H1.
  - pose proof (reads_back_fun _ _ _ _ H1 (uint_reads_back n v Hn)) as E.
    rewrite E. apply Z.mod_pos_bound. assumption.
  - rewrite <- (Z.mod_small v (256 ^ Z.of_nat n)) at 2 by assumption. now apply uint_reads_back.
Qed.

Lemma sint_reads_back n v : (0 < n)%nat -> - 2 ^ (8 * Z.of_nat n - 1) <= v < 2 ^ (8 * Z.of_nat n - 1) ->
  reads_back (read_sint (Z.of_nat n)) (enc_sint n v) v.
Proof. intros H1 H2. apply Parses_reads_back, Parses_sint; assumption. Qed.

Lemma to_signed_range n r : (0 < n)%nat -> 0 <= r < 256 ^ Z.of_nat n ->
  - 2 ^ (8 * Z.of_nat n - 1) <= to_signed (Z.of_nat n) r < 2 ^ (8 * Z.of_nat n - 1).
Proof.
  intros Hn Hr. set (h := 2 ^ (8 * Z.of_nat n - 1)).
  assert (2 ^ (8 * Z.of_nat n) = 2 * h) as Hh.
  { unfold h. rewrite <- Z.pow_succ_r by lia. f_equal. lia. }
  rewrite pow256_8, Hh in Hr. unfold to_signed.
  assert (0 < h) by (apply Z.pow_pos_nonneg; lia).
  rewrite Z.shiftr_div_pow2 by lia. fold h. rewrite Z.shiftl_mul_pow2, Hh by lia.
  destruct (r / h =? 1) eqn:E.
  - assert (r = h * (r / h) + r mod h) by (apply Z.div_mod; lia).
    pose proof (Z.mod_pos_bound r h ltac:(lia)). nia.
  - assert (r / h < 2) by (apply Z.div_lt_upper_bound; lia).
    assert (0 <= r / h) by (apply Z.div_pos; lia).
    assert (r / h = 0) as E0 by lia. apply Z.div_small_iff in E0; lia.
Qed.

Lemma sint_exact n v : (0 < n)%nat ->
  reads_back (read_sint (Z.of_nat n)) (enc_sint n v) v <->
  - 2 ^ (8 * Z.of_nat n - 1) <= v < 2 ^ (8 * Z.of_nat n - 1).
Proof.
  intros Hn. split; [|apply sint_reads_back; assumption]. intros H.
  set (x := if v <? 0 then v + Z.shiftl 1 (8 * Z.of_nat n) else v) in *.
  assert (reads_back (read_sint (Z.of_nat n)) (enc_sint n v) (to_signed (Z.of_nat n) (x mod 256 ^ Z.of_nat n))) as H2.
  { apply Parses_reads_back. unfold read_sint.
    apply (Parses_bind_ret (read_uint (Z.of_nat n)) (to_signed (Z.of_nat n))). apply Parses_uint_mod. }
  rewrite (reads_back_fun _ _ _ _ H H2).
  apply to_signed_range; [assumption|]. apply Z.mod_pos_bound, Z.pow_pos_nonneg; lia.
Qed.

Lemma uint_short n d base s w p : 0 < n -> 0 <= p -> zlen d - p < n ->
  read_uint n (mkFile d base s w) p = Err EEof.
Proof. intros. apply read_uint_short; cbn [f_data]; lia. Qed.

Lemma sint_short n d base s w p : 0 < n -> 0 <= p -> zlen d - p < n ->
  read_sint n (mkFile d base s w) p = Err EEof.
Proof. intros. unfold read_sint, bind. rewrite uint_short by assumption. reflexivity. Qed.

(** ---------------------------------------------------------------- text *)

Lemma rstrip0_last s : last (rstrip0 s) 1 <> 0.
Proof.
  induction s as [|c s IH]; cbn [rstrip0]; [cbn; lia|].
  destruct (rstrip0 s) as [|c' t'].
  - destruct (Z.eqb_spec c 0); cbn; [lia|assumption].
  - exact IH.
Qed.

Lemma clean_string_edge s : no_edge_nul (clean_string s).
Proof.
  unfold clean_string. pose proof (rstrip0_last s) as H. destruct (rstrip0 s) as [|c t]; [split; cbn; lia|].
  destruct (Z.eqb_spec c 0); [split; cbn; lia|]. split; [cbn; assumption|exact H].
Qed.

Lemma rstrip0_enc_len s : zlen (utf8_enc (rstrip0 s)) <= zlen (utf8_enc s).
Proof.
  induction s as [|c s IH]; cbn [rstrip0 utf8_enc]; [reflexivity|].
  assert (zlen (utf8_enc (c :: rstrip0 s)) <= zlen (utf8_enc1 c) + zlen (utf8_enc s)) as H.
  { cbn [utf8_enc]. rewrite zlen_app. lia. }
  rewrite zlen_app. destruct (rstrip0 s) as [|c' t'].
  - destruct (c =? 0); [pose proof (zlen_nonneg (utf8_enc1 c)); pose proof (zlen_nonneg (utf8_enc s)); cbn [utf8_enc]; rewrite zlen_nil; lia|]. exact H.
  - exact H.
Qed.

Lemma clean_string_enc_len s : zlen (utf8_enc (clean_string s)) <= zlen (utf8_enc s).
Proof.
  pose proof (rstrip0_enc_len s). pose proof (zlen_nonneg (utf8_enc s)).
  unfold clean_string. destruct (rstrip0 s) as [|c t]; [assumption|].
  destruct (c =? 0); [cbn [utf8_enc]; rewrite zlen_nil; lia|assumption].
Qed.

Lemma read_string_inv n d base s w p x q : 0 <= n -> bytes_ok d ->
  read_string n (mkFile d base s w) p = Ok (x, q) ->
  no_edge_nul x /\ zlen (utf8_enc x) <= n.
Proof.
  intros Hn Hd H. unfold read_string, bind, fread in H. cbn [f_data f_strict] in H.
  destruct (s && _); [discriminate|].
  set (b := zfirst n (zskip p d)) in *.
  destruct (zlen b =? n) eqn:E; [|discriminate].
  destruct (utf8_dec b) as [y|] eqn:Ey; [|discriminate].
  injection H as <- _. split; [apply clean_string_edge|].
  assert (bytes_ok b) as Hb by (apply bytes_ok_zfirst, bytes_ok_zskip; assumption).
  destruct (utf8_canonical _ _ Hb Ey) as [E1 _]. pose proof (clean_string_enc_len y). rewrite E1 in *. lia.
Qed.

Lemma enc_fixstring_ok n s : str_ok s -> bytes_ok (enc_fixstring n s).
Proof.
  intros H. unfold enc_fixstring. apply bytes_ok_zfirst, bytes_ok_app. split; [now apply utf8_enc_ok|apply bytes_ok_zeros].
Qed.

Lemma tag_text_ok s : str_ok s -> bytes_ok (tag_text s).
Proof. intros H. apply bytes_ok_zfirst. now apply utf8_enc_ok. Qed.

Lemma fixstring_exact n s : str_ok s ->
  reads_back (read_string (Z.of_nat n)) (enc_fixstring n s) s <->
  no_edge_nul s /\ zlen (utf8_enc s) <= Z.of_nat n.
Proof.
  intros Hs. split.
  - intros H. specialize (H [] [] 0 false false). rewrite app_nil_l, app_nil_r in H.
    eapply read_string_inv; [lia| |exact H]. now apply enc_fixstring_ok.
  - intros [H1 H2]. apply Parses_reads_back, Parses_fixstring; assumption.
Qed.

Lemma varstring_exact s : str_ok s ->
  reads_back read_varstring (enc_varstring s) s <-> no_edge_nul s /\ zlen (utf8_enc s) <= 65535.
Proof.
  intros Hs. split.
  - intros H. specialize (H [] [] 0 false false). rewrite app_nil_l, app_nil_r in H.
    unfold read_varstring, bind in H. pose proof (tag_text_len s) as HL.
    unfold enc_varstring in H at 1.
    rewrite (Parses_uint2 (zlen (tag_text s)) ltac:(lia) _ _ (tag_text s)) in H.
    2:{ unfold enc_varstring. apply At_start. }
    eapply read_string_inv in H; [destruct H; split; [assumption|lia]|lia|].
    unfold enc_varstring. apply bytes_ok_app. split; [apply enc_uint_ok|now apply tag_text_ok].
  - intros [H1 H2]. apply Parses_reads_back, Parses_varstring; assumption.
Qed.

Lemma read_string_bad n bs : zlen bs = n -> utf8_dec bs = None -> read_fails (read_string n) bs EDecode.
Proof.
  intros Hl Hd pre rest base s w. unfold read_string.
  pose proof (Parses_fread n bs Hl _ _ _ (At_mid pre (bs ++ rest) base s w)) as P.
  rewrite (bind_run _ _ _ _ _ _ P). rewrite Hl, Z.eqb_refl, Hd. reflexivity.
Qed.

Lemma fixstring_cut n s1 c s2 k : str_ok s1 -> scalar c -> str_ok s2 -> 0 < k < zlen (utf8_enc1 c) ->
  Z.of_nat n = zlen (utf8_enc s1) + k ->
  read_fails (read_string (Z.of_nat n)) (enc_fixstring n (s1 ++ c :: s2)) EDecode.
Proof.
  intros H1 Hc H2 Hk Hn. apply read_string_bad; [apply enc_fixstring_len|].
  unfold enc_fixstring. rewrite zfirst_app_le.
  - rewrite Hn. apply utf8_cut_mid; assumption.
  - rewrite utf8_enc_app. cbn [utf8_enc]. rewrite !zlen_app.
    pose proof (zlen_nonneg (utf8_enc s2)). lia.
Qed.

Lemma varstring_cut s1 c s2 k : str_ok s1 -> scalar c -> str_ok s2 -> 0 < k < zlen (utf8_enc1 c) ->
  65535 = zlen (utf8_enc s1) + k ->
  read_fails read_varstring (enc_varstring (s1 ++ c :: s2)) EDecode.
Proof.
  intros H1 Hc H2 Hk Hn pre rest base s w.
  pose proof (At_mid pre (enc_varstring (s1 ++ c :: s2) ++ rest) base s w) as HA.
  unfold read_varstring. unfold enc_varstring in HA at 2. rewrite <- app_assoc in HA.
  pose proof (tag_text_len (s1 ++ c :: s2)) as HL.
  rewrite (bind_run _ _ _ _ _ _ (Parses_uint2 (zlen (tag_text (s1 ++ c :: s2))) ltac:(lia) _ _ _ HA)). apply At_advance in HA.
  unfold read_string. rewrite (bind_run _ _ _ _ _ _ (Parses_fread _ _ eq_refl _ _ _ HA)).
  rewrite Z.eqb_refl. unfold tag_text. rewrite Hn, utf8_cut_mid by assumption. reflexivity.
Qed.

Lemma scalars_roundtrip :
  (forall b, reads_back read_bool (enc_bool b) b) /\
  (forall u, zlen u = 16 -> reads_back read_uuid (enc_uuid u) u) /\
  (forall d, dt_valid d = true -> reads_back read_datetime (enc_datetime d) d) /\
  (forall t, Z.abs t < 2 ^ 48 * 10 ^ 9 -> reads_back read_timestamp (enc_ts t) t) /\
  (forall t, Z.abs t < 2 ^ 48 * 10 ^ 9 -> reads_back read_timestamp_v7 (enc_ts_v7 t) (Z.abs t)) /\
  (forall n d, 0 <= n < 2 ^ 32 -> 0 < d < 2 ^ 32 -> Z.gcd n d = 1 ->
     reads_back read_rational (enc_rational (n, d)) (n, d)).
Proof.
  repeat split; intros; apply Parses_reads_back.
  - apply Parses_bool.
  - apply Parses_uuid; assumption.
  - apply Parses_datetime; assumption.
  - apply Parses_ts. unfold ts_fits, GIGA. lia.
  - apply Parses_ts_v7. unfold ts_fits, GIGA. lia.
  - apply Parses_rational; [split; cbn; [lia|assumption]|split; cbn; lia].
Qed.

Lemma ts_v7_exact t : Z.abs t < 2 ^ 48 * 10 ^ 9 ->
  reads_back read_timestamp_v7 (enc_ts_v7 t) t <-> 0 <= t.
Proof.
  intros Ht. destruct scalars_roundtrip as (_ & _ & _ & _ & H & _). specialize (H t Ht). split; intros H2.
  - pose proof (reads_back_fun _ _ _ _ H H2). lia.
  - rewrite Z.abs_eq in H by assumption. exact H.
Qed.

Lemma leap_iff y : leap y = true <-> leap_year y.
Proof. unfold leap, leap_year. lia. Qed.

Lemma dates d : dt_valid d = true <-> date_exists d.
Proof.
  destruct d as [y mo da h mi s]. unfold dt_valid, date_exists. cbn [dt_year dt_month dt_day dt_hour dt_min dt_sec].
  pose proof (leap_iff y) as HL. unfold days_in_month, month_days. cbn [In]. split.
  - intros H. repeat (split; [lia |]). split; [| lia].
    destruct (Z.eqb_spec mo 2) as [Hm | Hm].
    + destruct (leap y); [exists 29 | exists 28].
      * split; [| lia]. right. right. left. tauto.
      * split; [| lia]. right. right. right. split; [exact Hm |]. split; [| reflexivity]. intros HC. apply HL in HC. discriminate.
    + destruct ((mo =? 4) || (mo =? 6) || (mo =? 9) || (mo =? 11)) eqn:E; [exists 30 | exists 31]; (split; [lia | lia]).
  - intros (Hy & (n & Hn & Hd) & Hh & Hmi & Hs).
    destruct Hn as [[Hm ->] | [[Hm ->] | [(-> & Hl & ->) | (-> & Hl & ->)]]].
    + replace (mo =? 2) with false by lia. replace ((mo =? 4) || (mo =? 6) || (mo =? 9) || (mo =? 11)) with false by lia. lia.
    + replace (mo =? 2) with false by lia. replace ((mo =? 4) || (mo =? 6) || (mo =? 9) || (mo =? 11)) with true by lia. lia.
    + apply HL in Hl. rewrite Hl. cbn [Z.eqb Pos.eqb]. lia.
    + destruct (leap y); [tauto |]. cbn [Z.eqb Pos.eqb]. lia.
Qed.

Lemma bad_date d : date_fields d -> ~ date_exists d -> read_fails read_datetime (enc_datetime d) EValue.
Proof.
  intros [Hy Hf] Hn pre rest base s w. assert (Hv : dt_valid d = false) by (destruct (dt_valid d) eqn:E; [apply dates in E; contradiction | reflexivity]).
  destruct d as [y mo da h mi se]. cbn [dt_year dt_month dt_day dt_hour dt_min dt_sec] in *.
  pose proof (Forall_inv Hf) as H1. apply Forall_inv_tail in Hf. pose proof (Forall_inv Hf) as H2. apply Forall_inv_tail in Hf.
  pose proof (Forall_inv Hf) as H3. apply Forall_inv_tail in Hf. pose proof (Forall_inv Hf) as H4. apply Forall_inv_tail in Hf. pose proof (Forall_inv Hf) as H5. clear Hf. cbv beta in *.
  pose proof (At_mid pre (enc_datetime (mkDT y mo da h mi se) ++ rest) base s w) as HA.
  unfold enc_datetime in HA at 2. cbn [dt_year dt_month dt_day dt_hour dt_min dt_sec] in HA. repeat rewrite <- app_assoc in HA. unfold read_datetime.
  rewrite (bind_run _ _ _ _ _ _ (Parses_sint 2 y ltac:(lia) Hy _ _ _ HA)). apply At_advance in HA.
  rewrite (bind_run _ _ _ _ _ _ (Parses_uint1 mo H1 _ _ _ HA)). apply At_advance in HA.
  rewrite (bind_run _ _ _ _ _ _ (Parses_uint1 da H2 _ _ _ HA)). apply At_advance in HA.
  rewrite (bind_run _ _ _ _ _ _ (Parses_uint1 h H3 _ _ _ HA)). apply At_advance in HA.
  rewrite (bind_run _ _ _ _ _ _ (Parses_uint1 mi H4 _ _ _ HA)). apply At_advance in HA.
  rewrite (bind_run _ _ _ _ _ _ (Parses_uint1 se H5 _ _ _ HA)). cbv zeta. rewrite Hv. reflexivity.
Qed.

Lemma one_byte b : 0 <= b < 256 -> enc_uint 1 b = [b].
Proof. intros H. cbn [enc_uint]. f_equal. change 255 with (Z.ones 8). rewrite Z.land_ones by lia. apply Z.mod_small. exact H. Qed.

Lemma bool_bytes b : 0 <= b < 256 ->
  reads_back read_bool [b] (negb (b =? 0)) /\
  reads_back read_optional_bool [b] (match b with 0 => Some false | 1 => Some true | _ => None end).
Proof.
  intros H. rewrite <- (one_byte b H). split; apply Parses_reads_back.
  - apply (Parses_bind_ret (read_uint 1) (fun n => negb (n =? 0))). apply Parses_uint1. exact H.
  - unfold read_optional_bool. rewrite <- (app_nil_r (enc_uint _ _)). eapply Parses_bind; [apply Parses_uint1; exact H |].
    destruct (Z.gtb_spec b 1) as [H1 | H1].
    + destruct b as [| [p | p |] |]; try lia; apply Parses_ret.
    + assert (Hb : b = 0 \/ b = 1) by lia. destruct Hb as [-> | ->]; apply Parses_ret.
Qed.
