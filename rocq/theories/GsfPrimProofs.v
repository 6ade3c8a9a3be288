(** Lemmas about the primitive fields. *)
From Verif Require Import Base BaseProofs Utf8 Utf8Proofs GsfPrim.
From Coq Require Import ZifyBool ZifyNat Znumtheory.
Ltac Zify.zify_post_hook ::= Z.div_mod_to_equations.

(** [At f p l]: the stream is at [p] and [l] is everything from there to the end of the input. *)
Definition At (f : file) (p : Z) (l : bytes) : Prop :=
  0 <= p <= zlen (f_data f) /\ zskip p (f_data f) = l.

Lemma At_advance f p a b : At f p (a ++ b) -> At f (p + zlen a) b.
Proof.
  intros [Hp H]. pose proof (zlen_nonneg a).
  assert (zlen (a ++ b) = zlen (f_data f) - p) as HL.
  { rewrite <- H. rewrite zlen_zskip by lia. lia. }
  rewrite zlen_app in HL. pose proof (zlen_nonneg b). split; [lia|].
  rewrite <- zskip_zskip by lia. rewrite H. apply zskip_app.
Qed.

Lemma At_len f p l : At f p l -> zlen l = zlen (f_data f) - p.
Proof. intros [Hp <-]. rewrite zlen_zskip by lia. lia. Qed.

Lemma At_start d b s w : At (mkFile d b s w) 0 d.
Proof.
  split; cbn [f_data]; [pose proof (zlen_nonneg d); lia|]. apply zskip_le0; lia.
Qed.

(** [Parses m bs v]: wherever [bs] occurs in an input, [m] consumes exactly [bs] and returns [v]. *)
Definition Parses {A} (m : rd A) (bs : bytes) (v : A) : Prop :=
  forall f p rest, At f p (bs ++ rest) -> m f p = Ok (v, p + zlen bs).

Lemma Parses_ret {A} (v : A) : Parses (ret v) [] v.
Proof. intros f p rest _. unfold ret. rewrite zlen_nil. do 2 f_equal. lia. Qed.

Lemma Parses_bind {A B} (m : rd A) (k : A -> rd B) a b v w :
  Parses m a v -> Parses (k v) b w -> Parses (bind m k) (a ++ b) w.
Proof.
  intros Hm Hk f p rest H. unfold bind. rewrite <- app_assoc in H.
  rewrite (Hm _ _ _ H). rewrite (Hk _ _ _ (At_advance _ _ _ _ H)).
  rewrite zlen_app. do 2 f_equal. lia.
Qed.

Lemma Parses_bind_ret {A B} (m : rd A) (g : A -> B) a v :
  Parses m a v -> Parses (bind m (fun x => ret (g x))) a (g v).
Proof.
  intros Hm. rewrite <- (app_nil_r a). eapply Parses_bind; [eassumption|apply Parses_ret].
Qed.

Lemma bind_bind {A B C} (m : rd A) (k : A -> rd B) (h : B -> rd C) f p :
  bind (bind m k) h f p = bind m (fun x => bind (k x) h) f p.
Proof. unfold bind. destruct (m f p) as [[a p']|e]; reflexivity. Qed.

Lemma bind_run {A B} (m : rd A) (k : A -> rd B) f p v p' :
  m f p = Ok (v, p') -> bind m k f p = k v f p'.
Proof. intros H; unfold bind; rewrite H; reflexivity. Qed.

Lemma Parses_fread n bs : zlen bs = n -> Parses (fread n) bs bs.
Proof.
  intros Hn f p rest [Hp H]. unfold fread. rewrite H.
  subst n. rewrite zfirst_app. rewrite Z.ltb_irrefl, andb_false_r. reflexivity.
Qed.

(** ---------------------------------------------------------------- integers *)

Lemma enc_uint_len n v : zlen (enc_uint n v) = Z.of_nat n.
Proof.
  revert v; induction n as [|n IH]; intros v; cbn [enc_uint]; [reflexivity|].
  rewrite zlen_cons, IH. lia.
Qed.

Lemma land255 v : Z.land v 255 = v mod 256.
Proof. change 255 with (Z.ones 8). rewrite Z.land_ones by lia. reflexivity. Qed.

Lemma shiftr8 v : Z.shiftr v 8 = v / 256.
Proof. rewrite Z.shiftr_div_pow2 by lia. reflexivity. Qed.

Lemma enc_uint_ok n v : bytes_ok (enc_uint n v).
Proof.
  revert v; induction n as [|n IH]; intros v; cbn [enc_uint]; constructor.
  - rewrite land255. unfold byte_ok. lia.
  - apply IH.
Qed.

Lemma pow256_succ n : 256 ^ Z.of_nat (S n) = 256 * 256 ^ Z.of_nat n.
Proof. rewrite Nat2Z.inj_succ, Z.pow_succ_r by lia. reflexivity. Qed.

Lemma le_dec_enc n v : le_dec (enc_uint n v) = v mod 256 ^ Z.of_nat n.
Proof.
  revert v; induction n as [|n IH]; intros v.
  - cbn [enc_uint le_dec]. change (256 ^ Z.of_nat 0) with 1. now rewrite Z.mod_1_r.
  - cbn [enc_uint le_dec]. rewrite IH, land255, shiftr8, pow256_succ.
    assert (0 < 256 ^ Z.of_nat n) by (apply Z.pow_pos_nonneg; lia).
    rewrite Z.rem_mul_r by lia. reflexivity.
Qed.

Lemma le_dec_bound l : bytes_ok l -> 0 <= le_dec l < 256 ^ zlen l.
Proof.
  intros H; induction H as [|b l Hb Hl IH]; [cbn; lia|].
  cbn [le_dec]. unfold zlen in *. cbn [length]. rewrite pow256_succ.
  unfold byte_ok in Hb. lia.
Qed.

Lemma enc_le_dec l : bytes_ok l -> enc_uint (length l) (le_dec l) = l.
Proof.
  intros H; induction H as [|b l Hb Hl IH]; [reflexivity|].
  cbn [le_dec length enc_uint]. rewrite land255, shiftr8. unfold byte_ok in Hb.
  f_equal; [lia|].
  replace ((b + 256 * le_dec l) / 256) with (le_dec l) by lia. assumption.
Qed.

Lemma enc_uint_mod n v : enc_uint n (v mod 256 ^ Z.of_nat n) = enc_uint n v.
Proof.
  pose proof (enc_uint_ok n v) as Ho. pose proof (enc_uint_len n v) as Hl.
  apply enc_le_dec in Ho. rewrite le_dec_enc in Ho.
  replace (length (enc_uint n v)) with n in Ho by (unfold zlen in Hl; lia). exact Ho.
Qed.

Lemma Parses_uint_mod n v : Parses (read_uint (Z.of_nat n)) (enc_uint n v) (v mod 256 ^ Z.of_nat n).
Proof.
  unfold read_uint. rewrite <- (app_nil_r (enc_uint n v)).
  eapply Parses_bind; [apply Parses_fread; rewrite app_nil_r || idtac; apply enc_uint_len|].
  rewrite enc_uint_len, Z.eqb_refl, le_dec_enc. apply Parses_ret.
Qed.

Lemma Parses_uint n v : 0 <= v < 256 ^ Z.of_nat n -> Parses (read_uint (Z.of_nat n)) (enc_uint n v) v.
Proof.
  intros H. pose proof (Parses_uint_mod n v) as P. rewrite Z.mod_small in P by assumption. exact P.
Qed.

Lemma Parses_uint1 v : 0 <= v < 256 -> Parses (read_uint 1) (enc_uint 1 v) v.
Proof. intros H. apply (Parses_uint 1). exact H. Qed.
Lemma Parses_uint2 v : 0 <= v < 65536 -> Parses (read_uint 2) (enc_uint 2 v) v.
Proof. intros H. apply (Parses_uint 2). exact H. Qed.
Lemma Parses_uint4 v : 0 <= v < 4294967296 -> Parses (read_uint 4) (enc_uint 4 v) v.
Proof. intros H. apply (Parses_uint 4). exact H. Qed.
Lemma Parses_uint6 v : 0 <= v < 281474976710656 -> Parses (read_uint 6) (enc_uint 6 v) v.
Proof. intros H. apply (Parses_uint 6). exact H. Qed.
Lemma Parses_uint8 v : 0 <= v < 18446744073709551616 -> Parses (read_uint 8) (enc_uint 8 v) v.
Proof. intros H. apply (Parses_uint 8). exact H. Qed.

Lemma pow256_8 n : 256 ^ Z.of_nat n = 2 ^ (8 * Z.of_nat n).
Proof. change 256 with (2 ^ 8). rewrite <- Z.pow_mul_r by lia. reflexivity. Qed.

Lemma to_signed_correct n v : (0 < n)%nat ->
  - 2 ^ (8 * Z.of_nat n - 1) <= v < 2 ^ (8 * Z.of_nat n - 1) ->
  to_signed (Z.of_nat n) ((if v <? 0 then v + Z.shiftl 1 (8 * Z.of_nat n) else v) mod 256 ^ Z.of_nat n) = v.
Proof.
  intros Hn Hv. set (h := 2 ^ (8 * Z.of_nat n - 1)) in *.
  assert (2 ^ (8 * Z.of_nat n) = 2 * h) as Hh.
  { unfold h. rewrite <- Z.pow_succ_r by lia. f_equal. lia. }
  assert (0 < h) by (apply Z.pow_pos_nonneg; lia).
  unfold to_signed. rewrite Z.shiftl_mul_pow2, Z.mul_1_l by lia.
  rewrite pow256_8, Hh, Z.shiftr_div_pow2 by lia. fold h.
  destruct (v <? 0) eqn:E.
  - rewrite Z.mod_small by lia.
    replace ((v + 2 * h) / h) with 1; [cbn [Z.eqb Pos.eqb]; lia|].
    apply (Z.div_unique_pos _ h 1 (v + h)); lia.
  - rewrite Z.mod_small by lia. rewrite Z.div_small by lia. reflexivity.
Qed.

Lemma Parses_sint n v : (0 < n)%nat -> - 2 ^ (8 * Z.of_nat n - 1) <= v < 2 ^ (8 * Z.of_nat n - 1) ->
  Parses (read_sint (Z.of_nat n)) (enc_sint n v) v.
Proof.
  intros Hn Hv. unfold read_sint, enc_sint.
  rewrite <- (to_signed_correct n v Hn Hv) at 4.
  apply (Parses_bind_ret (read_uint (Z.of_nat n)) (to_signed (Z.of_nat n))). apply Parses_uint_mod.
Qed.

Lemma Parses_optional_sint4 v : - 2147483648 <= v < 2147483647 ->
  Parses (read_optional_sint 4 2147483647) (enc_sint 4 v) (Some v).
Proof.
  intros Hv. unfold read_optional_sint, enc_sint.
  rewrite <- (app_nil_r (enc_uint _ _)).
  eapply Parses_bind; [apply (Parses_uint_mod 4)|].
  pose proof (to_signed_correct 4 v ltac:(lia) ltac:(change (2 ^ (8 * Z.of_nat 4 - 1)) with 2147483648; lia)) as HS.
  change (256 ^ Z.of_nat 4) with 4294967296 in *. change (Z.of_nat 4) with 4 in *.
  change (Z.shiftl 1 (8 * 4)) with 4294967296 in *.
  replace ((if v <? 0 then v + 4294967296 else v) mod 4294967296 =? 2147483647) with false
    by (destruct (v <? 0) eqn:?; lia).
  rewrite HS. apply Parses_ret.
Qed.

Lemma Parses_optional_sint4_null :
  Parses (read_optional_sint 4 2147483647) (enc_sint 4 2147483647) None.
Proof.
  unfold read_optional_sint, enc_sint.
  rewrite <- (app_nil_r (enc_uint _ _)).
  eapply Parses_bind; [apply (Parses_uint_mod 4)|].
  change (256 ^ Z.of_nat 4) with 4294967296. cbn [Z.ltb Z.compare]. apply Parses_ret.
Qed.

(** ---------------------------------------------------------------- short reads *)

Lemma fread_len n f p d p' : 0 <= n -> fread n f p = Ok (d, p') -> zlen d <= n /\ p' = p + zlen d.
Proof.
  intros Hn H. unfold fread in H. destruct (f_strict f && _); [discriminate|].
  injection H as <- <-. rewrite zlen_zfirst by assumption. lia.
Qed.

Lemma read_uint_short n f p : 0 <= n -> 0 <= p -> zlen (f_data f) - p < n -> 0 < n -> read_uint n f p = Err EEof.
Proof.
  intros Hn Hp H Hn'. unfold read_uint, bind, fread.
  assert (zlen (zfirst n (zskip p (f_data f))) < n) as HL.
  { rewrite zlen_zfirst, zlen_zskip by lia. lia. }
  destruct (f_strict f && _); [reflexivity|].
  replace (_ =? n) with false by lia. reflexivity.
Qed.

(** ---------------------------------------------------------------- scalars *)

Lemma Parses_bool b : Parses read_bool (enc_bool b) b.
Proof.
  unfold read_bool, enc_bool. replace b with (negb ((if b then 1 else 0) =? 0)) at 2 by (destruct b; reflexivity).
  apply (Parses_bind_ret (read_uint 1) (fun n => negb (n =? 0))).
  apply Parses_uint1. destruct b; lia.
Qed.

Lemma Parses_optional_bool b :
  Parses read_optional_bool (enc_uint 1 (match b with Some true => 1 | Some false => 0 | None => 3 end)) b.
Proof.
  unfold read_optional_bool. rewrite <- (app_nil_r (enc_uint _ _)).
  eapply Parses_bind; [apply Parses_uint1; destruct b as [[]|]; lia|].
  destruct b as [[]|]; apply Parses_ret.
Qed.

Lemma Parses_uuid u : zlen u = 16 -> Parses read_uuid (enc_uuid u) u.
Proof.
  intros H. unfold read_uuid, enc_uuid. rewrite <- (app_nil_r u) at 1.
  eapply Parses_bind; [apply Parses_fread; eassumption|].
  rewrite H. apply Parses_ret.
Qed.

Lemma days_in_month_le y m : days_in_month y m <= 31.
Proof. unfold days_in_month. destruct (m =? 2); [destruct (leap y); lia|]. destruct (_ || _); lia. Qed.

Lemma Parses_datetime d : dt_valid d = true -> Parses read_datetime (enc_datetime d) d.
Proof.
  intros H. pose proof (days_in_month_le (dt_year d) (dt_month d)) as HD.
  destruct d as [y mo da h mi s]. unfold read_datetime, enc_datetime.
  pose proof H as H'. unfold dt_valid in H'.
  cbn [dt_year dt_month dt_day dt_hour dt_min dt_sec] in *.
  eapply Parses_bind; [apply (Parses_sint 2); [lia|]; change (2 ^ (8 * Z.of_nat 2 - 1)) with 32768; lia|].
  eapply Parses_bind; [apply Parses_uint1; lia|].
  eapply Parses_bind; [apply Parses_uint1; lia|].
  eapply Parses_bind; [apply Parses_uint1; lia|].
  eapply Parses_bind; [apply Parses_uint1; lia|].
  rewrite <- (app_nil_r (enc_uint 1 s)).
  eapply Parses_bind; [apply Parses_uint1; lia|].
  cbv zeta. rewrite H. apply Parses_ret.
Qed.

Lemma ts_parts t : ts_make (ts_secs t) (ts_nanos t) (ts_sign t) = t.
Proof. unfold ts_make, ts_secs, ts_nanos, ts_sign, GIGA. destruct (t <? 0) eqn:?; lia. Qed.

Definition ts_fits (t : Z) : Prop := Z.abs t < 281474976710656 * GIGA.

Lemma Parses_ts t : ts_fits t -> Parses read_timestamp (enc_ts t) t.
Proof.
  unfold ts_fits, GIGA. intros H. unfold read_timestamp, enc_ts.
  eapply Parses_bind; [apply Parses_bool|].
  eapply Parses_bind; [apply Parses_uint6; unfold ts_secs, GIGA; lia|].
  rewrite <- (app_nil_r (enc_uint 4 _)).
  eapply Parses_bind; [apply Parses_uint4; unfold ts_nanos, GIGA; lia|].
  replace (ts_make _ _ _) with t; [apply Parses_ret|].
  rewrite <- (ts_parts t) at 1. f_equal. unfold ts_sign. destruct (t <? 0) eqn:?; reflexivity.
Qed.

Lemma Parses_ts_v7 t : ts_fits t -> Parses read_timestamp_v7 (enc_ts_v7 t) (Z.abs t).
Proof.
  unfold ts_fits, GIGA. intros H. unfold read_timestamp_v7, enc_ts_v7.
  eapply Parses_bind; [apply Parses_uint6; unfold ts_secs, GIGA; lia|].
  rewrite <- (app_nil_r (enc_uint 4 _)).
  eapply Parses_bind; [apply Parses_uint4; unfold ts_nanos, GIGA; lia|].
  replace (ts_make _ _ _) with (Z.abs t); [apply Parses_ret|].
  unfold ts_make, ts_secs, ts_nanos, GIGA. lia.
Qed.

Lemma mk_rat_reduced n d : 0 < d -> Z.gcd n d = 1 -> mk_rat n d = (n, d).
Proof. intros Hd Hg. unfold mk_rat. rewrite Hg, !Z.div_1_r. reflexivity. Qed.

Definition rat_fits (r : rat) : Prop := 0 <= fst r < 4294967296 /\ snd r < 4294967296.

(** Reading two unsigned 4-byte numbers as a rational (used for time labels, whose parts are not reduced). *)
Definition rat_norm (n d : Z) : rat := if (n =? 0) || (d =? 0) then rat_zero else mk_rat n d.

Lemma Parses_rational_raw n d : 0 <= n < 4294967296 -> 0 <= d < 4294967296 ->
  Parses read_rational (enc_uint 4 n ++ enc_uint 4 d) (rat_norm n d).
Proof.
  intros Hn Hd. unfold read_rational, rat_norm.
  eapply Parses_bind; [apply Parses_uint4; assumption|].
  rewrite <- (app_nil_r (enc_uint 4 d)).
  eapply Parses_bind; [apply Parses_uint4; assumption|].
  destruct (_ || _); apply Parses_ret.
Qed.

Lemma rat_norm_id r : rat_ok r -> rat_norm (fst r) (snd r) = r.
Proof.
  intros [Hd Hg]. destruct r as [n d]. cbn [fst snd] in *. unfold rat_norm.
  destruct (n =? 0) eqn:E; cbn [orb].
  - assert (n = 0) as -> by lia. rewrite Z.gcd_0_l in Hg. unfold rat_zero. f_equal. lia.
  - replace (d =? 0) with false by lia. now apply mk_rat_reduced.
Qed.

Lemma mk_rat_ok n d : 0 < d -> rat_ok (mk_rat n d).
Proof.
  intros Hd. unfold mk_rat, rat_ok. cbn [fst snd].
  assert (0 < Z.gcd n d) as Hg.
  { pose proof (Z.gcd_nonneg n d). destruct (Z.eq_dec (Z.gcd n d) 0) as [E|E]; [|lia].
    apply Z.gcd_eq_0_r in E. lia. }
  split.
  - destruct (Z.gcd_divide_r n d) as [q Hq]. rewrite Hq at 1. rewrite Z.div_mul by lia. nia.
  - rewrite Z.gcd_div_gcd; [reflexivity|lia|reflexivity].
Qed.

Lemma rat_norm_ok n d : 0 <= d -> rat_ok (rat_norm n d).
Proof.
  intros Hd. unfold rat_norm. destruct ((n =? 0) || (d =? 0)) eqn:E.
  - split; cbn; [lia|reflexivity].
  - apply mk_rat_ok. lia.
Qed.

Lemma Parses_rational r : rat_ok r -> rat_fits r -> Parses read_rational (enc_rational r) r.
Proof.
  intros Hr [Hf1 Hf2]. rewrite <- (rat_norm_id r Hr) at 2. apply Parses_rational_raw; [assumption|].
  destruct Hr; lia.
Qed.

(** ---------------------------------------------------------------- text *)

Definition no_edge_nul (s : str) : Prop := hd 1 s <> 0 /\ last s 1 <> 0.

Lemma rstrip0_zeros s n : rstrip0 (s ++ zeros n) = rstrip0 s.
Proof.
  induction s as [|c s IH]; cbn [app rstrip0].
  - induction n as [|n IHn]; [reflexivity|]. cbn [zeros repeat rstrip0]. fold (zeros n). rewrite IHn. reflexivity.
  - rewrite IH. reflexivity.
Qed.

Lemma rstrip0_id s : last s 1 <> 0 -> rstrip0 s = s.
Proof.
  induction s as [|c s IH]; [reflexivity|]. intros H. cbn [rstrip0].
  destruct s as [|c' s'].
  - cbn in H |- *. destruct (Z.eqb_spec c 0); [contradiction|reflexivity].
  - rewrite IH; [reflexivity|exact H].
Qed.

Lemma clean_string_padded s n : no_edge_nul s -> clean_string (s ++ zeros n) = s.
Proof.
  intros [H1 H2]. unfold clean_string. rewrite rstrip0_zeros, rstrip0_id by assumption.
  destruct s as [|c t]; [reflexivity|]. cbn [hd] in H1.
  destruct (Z.eqb_spec c 0); [contradiction|reflexivity].
Qed.

Lemma clean_string_id s : no_edge_nul s -> clean_string s = s.
Proof.
  intros H. rewrite <- (app_nil_r s) at 1. exact (clean_string_padded s 0 H).
Qed.

Lemma utf8_dec_zeros n : utf8_dec (zeros n) = Some (zeros n).
Proof.
  induction n as [|n IH]; [reflexivity|]. cbn [zeros repeat utf8_dec]. fold (zeros n). rewrite IH. reflexivity.
Qed.

Lemma zeros_len n : zlen (zeros n) = Z.of_nat n.
Proof. unfold zeros. apply zlen_repeat. Qed.

Lemma zfirst_zeros k n : 0 <= k <= Z.of_nat n -> zfirst k (zeros n) = zeros (Z.to_nat k).
Proof.
  intros H. rewrite zfirst_firstn. unfold zeros.
  replace n with (Z.to_nat k + (n - Z.to_nat k))%nat by lia.
  rewrite repeat_app. rewrite firstn_app, repeat_length, Nat.sub_diag. cbn [firstn].
  rewrite firstn_all2 by (rewrite repeat_length; lia). apply app_nil_r.
Qed.

Lemma enc_fixstring_len n s : zlen (enc_fixstring n s) = Z.of_nat n.
Proof.
  unfold enc_fixstring. rewrite zlen_zfirst, zlen_app, zeros_len by lia.
  pose proof (zlen_nonneg (utf8_enc s)). lia.
Qed.

Lemma enc_fixstring_fit n s : zlen (utf8_enc s) <= Z.of_nat n ->
  enc_fixstring n s = utf8_enc s ++ zeros (Z.to_nat (Z.of_nat n - zlen (utf8_enc s))).
Proof.
  intros H. unfold enc_fixstring. rewrite zfirst_app_ge by assumption. f_equal.
  apply zfirst_zeros. pose proof (zlen_nonneg (utf8_enc s)). lia.
Qed.

Lemma Parses_string_bytes n bs s : zlen bs = n -> utf8_dec bs = Some s -> Parses (read_string n) bs (clean_string s).
Proof.
  intros Hl Hd. unfold read_string. rewrite <- (app_nil_r bs).
  eapply Parses_bind; [apply Parses_fread; eassumption|].
  rewrite Hl, Z.eqb_refl, Hd. apply Parses_ret.
Qed.

Lemma Parses_fixstring n s : str_ok s -> no_edge_nul s -> zlen (utf8_enc s) <= Z.of_nat n ->
  Parses (read_string (Z.of_nat n)) (enc_fixstring n s) s.
Proof.
  intros Hs Hn Hl.
  rewrite <- (clean_string_padded s (Z.to_nat (Z.of_nat n - zlen (utf8_enc s))) Hn).
  rewrite (clean_string_padded s (Z.to_nat (Z.of_nat n - zlen (utf8_enc s))) Hn) at 1.
  apply Parses_string_bytes; [apply enc_fixstring_len|].
  rewrite enc_fixstring_fit by assumption. rewrite utf8_dec_enc by assumption.
  rewrite utf8_dec_zeros. reflexivity.
Qed.

Lemma tag_text_fit s : zlen (utf8_enc s) <= 65535 -> tag_text s = utf8_enc s.
Proof. intros H; unfold tag_text. now apply zfirst_all. Qed.

Lemma tag_text_len s : 0 <= zlen (tag_text s) <= 65535.
Proof.
  unfold tag_text. rewrite zlen_zfirst by lia. pose proof (zlen_nonneg (utf8_enc s)). lia.
Qed.

Lemma Parses_varstring s : str_ok s -> no_edge_nul s -> zlen (utf8_enc s) <= 65535 ->
  Parses read_varstring (enc_varstring s) s.
Proof.
  intros Hs Hn Hl. unfold read_varstring, enc_varstring.
  eapply Parses_bind; [apply Parses_uint2; pose proof (tag_text_len s); lia|].
  rewrite <- (clean_string_id s Hn) at 3.
  apply Parses_string_bytes; [reflexivity|].
  rewrite tag_text_fit by assumption. now apply utf8_roundtrip.
Qed.

Lemma Parses_repeatm {A} (m : rd A) (enc : A -> bytes) (g : A -> A) (l : list A) :
  (forall x, In x l -> Parses m (enc x) (g x)) ->
  Parses (repeatm (length l) m) (flat_map enc l) (map g l).
Proof.
  induction l as [|x l IH]; intros H; cbn [length repeatm flat_map map]; [apply Parses_ret|].
  eapply Parses_bind; [apply H; left; reflexivity|].
  rewrite <- (app_nil_r (flat_map enc l)).
  eapply Parses_bind; [apply IH; intros y Hy; apply H; right; exact Hy|].
  apply Parses_ret.
Qed.
