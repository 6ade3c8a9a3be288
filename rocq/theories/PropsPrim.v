(** Property theorems C01-C03: single GSF fields. *)
From Verif Require Import Base Utf8 GsfPrim GsfPrimProofs GsfSpec GsfPrimFacts.

(** C01. Unsigned n-byte fields: exactly n bytes are written and v mod 256^n is read back, so the value survives
    iff it is in range. *)
Theorem C01_uint_length : forall (n : nat) (v : Z), zlen (enc_uint n v) = Z.of_nat n /\ bytes_ok (enc_uint n v).
Proof. exact (fun n v => conj (enc_uint_len n v) (enc_uint_ok n v)). Qed.
Print Assumptions C01_uint_length.

Theorem C01_uint_wraps : forall (n : nat) (v : Z), (0 < n)%nat ->
  reads_back (read_uint (Z.of_nat n)) (enc_uint n v) (v mod 256 ^ Z.of_nat n).
Proof. exact uint_reads_back. Qed.
Print Assumptions C01_uint_wraps.

Theorem C01_uint_roundtrip_iff : forall (n : nat) (v : Z), (0 < n)%nat ->
  reads_back (read_uint (Z.of_nat n)) (enc_uint n v) v <-> 0 <= v < 256 ^ Z.of_nat n.
Proof. exact uint_exact. Qed.
Print Assumptions C01_uint_roundtrip_iff.

Theorem C01_sint_roundtrip_iff : forall (n : nat) (v : Z), (0 < n)%nat ->
  reads_back (read_sint (Z.of_nat n)) (enc_sint n v) v <->
  - 2 ^ (8 * Z.of_nat n - 1) <= v < 2 ^ (8 * Z.of_nat n - 1).
Proof. exact sint_exact. Qed.
Print Assumptions C01_sint_roundtrip_iff.

Theorem C01_short_read_raises : forall n d base strict fwd p, 0 < n -> 0 <= p -> zlen d - p < n ->
  read_uint n (mkFile d base strict fwd) p = Err EEof /\ read_sint n (mkFile d base strict fwd) p = Err EEof.
Proof. exact (fun n d b s w p H1 H2 H3 => conj (uint_short n d b s w p H1 H2 H3) (sint_short n d b s w p H1 H2 H3)). Qed.
Print Assumptions C01_short_read_raises.

Example C01_example :
  enc_uint 4 305419896 = [120; 86; 52; 18] /\
  read_uint 4 (mkFile [1; 120; 86; 52; 18; 9] 0 false false) 1 = Ok (305419896, 5) /\
  read_sint 8 (mkFile (enc_sint 8 (-1)) 0 true true) 0 = Ok (-1, 8) /\
  read_uint 4 (mkFile [1; 2; 3] 0 false false) 0 = Err EEof.
Proof. repeat split; reflexivity. Qed.

(** C02. Booleans, UUIDs, the creation date, timestamps (in nanoseconds), fractions. *)
Theorem C02_scalars_roundtrip :
  (forall b, reads_back read_bool (enc_bool b) b) /\
  (forall u, zlen u = 16 -> reads_back read_uuid (enc_uuid u) u) /\
  (forall d, dt_valid d = true -> reads_back read_datetime (enc_datetime d) d) /\
  (forall t, Z.abs t < 2 ^ 48 * 10 ^ 9 -> reads_back read_timestamp (enc_ts t) t) /\
  (forall t, Z.abs t < 2 ^ 48 * 10 ^ 9 -> reads_back read_timestamp_v7 (enc_ts_v7 t) (Z.abs t)) /\
  (forall n d, 0 <= n < 2 ^ 32 -> 0 < d < 2 ^ 32 -> Z.gcd n d = 1 ->
     reads_back read_rational (enc_rational (n, d)) (n, d)).
Proof. exact scalars_roundtrip. Qed.
Print Assumptions C02_scalars_roundtrip.

Theorem C02_v7_timestamp_roundtrip_iff : forall t, Z.abs t < 2 ^ 48 * 10 ^ 9 ->
  reads_back read_timestamp_v7 (enc_ts_v7 t) t <-> 0 <= t.
Proof. exact ts_v7_exact. Qed.
Print Assumptions C02_v7_timestamp_roundtrip_iff.

(** The dates that can be written and read are those of the calendar; other contents of the field raise ValueError. *)
Theorem C02_dates : forall d, (date_exists d -> reads_back read_datetime (enc_datetime d) d) /\
  (date_fields d -> ~ date_exists d -> read_fails read_datetime (enc_datetime d) EValue).
Proof. exact (fun d => conj (fun H => proj1 (proj2 (proj2 scalars_roundtrip)) d (proj2 (dates d) H)) (bad_date d)). Qed.
Print Assumptions C02_dates.

(** Every byte as a flag and as a flag that may be unknown. *)
Theorem C02_flags : forall b, 0 <= b < 256 ->
  reads_back read_bool [b] (negb (b =? 0)) /\
  reads_back read_optional_bool [b] (match b with 0 => Some false | 1 => Some true | _ => None end).
Proof. exact bool_bytes. Qed.
Print Assumptions C02_flags.

Example C02_example :
  dt_valid (mkDT 2024 2 29 23 59 59) = true /\ dt_valid (mkDT 2023 2 29 0 0 0) = false /\
  enc_datetime (mkDT 2024 2 29 23 59 59) = [232; 7; 2; 29; 23; 59; 59] /\
  enc_ts (-1500000000) = [0; 1; 0; 0; 0; 0; 0; 0; 101; 205; 29] /\
  read_timestamp (mkFile (enc_ts (-1500000000)) 0 false false) 0 = Ok (-1500000000, 11) /\
  read_timestamp_v7 (mkFile (enc_ts_v7 (-1500000000)) 0 false false) 0 = Ok (1500000000, 10) /\
  read_rational (mkFile (enc_rational (30000, 1001)) 0 false false) 0 = Ok ((30000, 1001), 8).
Proof. repeat split; reflexivity. Qed.

(** C03. Text fields. [utf8_enc] is the UTF-8 encoding, [str_ok] says that all characters are Unicode scalar
    values, [no_edge_nul] that the string neither starts nor ends with NUL. *)
Theorem C03_utf8_strict : forall s, str_ok s -> utf8_dec (utf8_enc s) = Some s.
Proof. exact Utf8Proofs.utf8_roundtrip. Qed.
Print Assumptions C03_utf8_strict.

Theorem C03_utf8_canonical : forall l s, bytes_ok l -> utf8_dec l = Some s -> utf8_enc s = l /\ str_ok s.
Proof. exact Utf8Proofs.utf8_canonical. Qed.
Print Assumptions C03_utf8_canonical.

Theorem C03_fixed_field_roundtrip_iff : forall (n : nat) s, str_ok s ->
  reads_back (read_string (Z.of_nat n)) (enc_fixstring n s) s <->
  no_edge_nul s /\ zlen (utf8_enc s) <= Z.of_nat n.
Proof. exact fixstring_exact. Qed.
Print Assumptions C03_fixed_field_roundtrip_iff.

Theorem C03_tag_field_roundtrip_iff : forall s, str_ok s ->
  reads_back read_varstring (enc_varstring s) s <-> no_edge_nul s /\ zlen (utf8_enc s) <= 65535.
Proof. exact varstring_exact. Qed.
Print Assumptions C03_tag_field_roundtrip_iff.

Theorem C03_fixed_field_cut_undecodable : forall (n : nat) s1 c s2 k,
  str_ok s1 -> scalar c -> str_ok s2 -> 0 < k < zlen (utf8_enc1 c) -> Z.of_nat n = zlen (utf8_enc s1) + k ->
  read_fails (read_string (Z.of_nat n)) (enc_fixstring n (s1 ++ c :: s2)) EDecode.
Proof. exact fixstring_cut. Qed.
Print Assumptions C03_fixed_field_cut_undecodable.

Theorem C03_tag_field_cut_undecodable : forall s1 c s2 k,
  str_ok s1 -> scalar c -> str_ok s2 -> 0 < k < zlen (utf8_enc1 c) -> 65535 = zlen (utf8_enc s1) + k ->
  read_fails read_varstring (enc_varstring (s1 ++ c :: s2)) EDecode.
Proof. exact varstring_cut. Qed.
Print Assumptions C03_tag_field_cut_undecodable.

Example C03_example :
  (* 15 letters and a two-byte e-acute: 17 bytes do not fit in 16 and the cut is inside the last character *)
  (let s1 := repeat 97 15 in
   zlen (utf8_enc s1) + 1 = 16 /\ zlen (utf8_enc1 233) = 2 /\
   read_string 16 (mkFile (enc_fixstring 16 (s1 ++ [233])) 0 false false) 0 = Err EDecode) /\
  read_string 16 (mkFile (enc_fixstring 16 [8364; 128512; 97]) 0 false false) 0 = Ok ([8364; 128512; 97], 16) /\
  read_string 16 (mkFile (enc_fixstring 16 [0; 97]) 0 false false) 0 = Ok ([], 16).
Proof. repeat split; reflexivity. Qed.
