(** Proofs about ADTS headers and frames. *)
From Coq Require Import Lia ZifyBool ZifyNat.
From Verif Require Import Base BaseProofs PatternTime PatternSpec PatternTimeProofs Wrap WrapSpec WrapProofs.
Ltac Zify.zify_post_hook ::= Z.div_mod_to_equations.

(** The seven bytes of a header. *)
Definition header_bytes (f : adts_fields) : bytes :=
  [255; 240 + af_id f * 8 + af_layer f * 2 + af_no_crc f;
   af_profile f * 64 + af_frequency f * 4 + af_private f * 2 + af_channels f / 4;
   af_channels f mod 4 * 64 + af_original f * 32 + af_home f * 16 + af_copyright f * 8 + af_copyright_start f * 4 + af_length f / 2048;
   af_length f / 8 mod 256; af_length f mod 8 * 32 + af_fullness f / 64; af_fullness f mod 64 * 4 + af_blocks f].

Lemma digits (l : bytes) : bytes_ok l -> forall hi, big_endian (length l) (fold_left (fun n b => n * 256 + b) l hi) = l.
Proof.
  induction l as [|b l IH] using rev_ind; intros H hi; [reflexivity|].
  apply Forall_app in H as [H Hb]. apply Forall_inv in Hb. rewrite fold_left_app, app_length, Nat.add_comm. cbn [length fold_left Nat.add].
  set (N := fold_left (fun n x => n * 256 + x) l hi) in *.
  assert (G : forall n v, 0 <= b < 256 -> big_endian (S n) (v * 256 + b) = big_endian n v ++ [b]).
  { induction n as [|n IHn]; intros v B.
    - cbn [big_endian app]. f_equal. change (256 ^ Z.of_nat 0) with 1. rewrite Z.div_1_r. lia.
    - change (big_endian (S (S n)) (v * 256 + b)) with ((v * 256 + b) / 256 ^ Z.of_nat (S n) mod 256 :: big_endian (S n) (v * 256 + b)).
      rewrite IHn by assumption. cbn [big_endian app]. f_equal. f_equal.
      rewrite Nat2Z.inj_succ, Z.pow_succ_r by lia. rewrite <- Z.div_div by lia. f_equal. lia. }
  rewrite G by assumption. f_equal. apply IH. assumption.
Qed.

Lemma header_eq f : fields_ok f -> adts_header f = header_bytes f.
Proof.
  intros H. unfold fields_ok, adts_syntax in H. rewrite !Forall_cons_iff in H. cbn [fst snd] in H.
  destruct H as (_ & H1 & H2 & H3 & H4 & H5 & H6 & H7 & H8 & H9 & H10 & H11 & H12 & H13 & H14 & _).
  change (2 ^ 1) with 2 in *. change (2 ^ 2) with 4 in *. change (2 ^ 3) with 8 in *. change (2 ^ 4) with 16 in *.
  change (2 ^ 11) with 2048 in *. change (2 ^ 13) with 8192 in *.
  unfold adts_header. rewrite <- (digits (header_bytes f)) with (hi := 0).
  - cbn [length header_bytes]. f_equal. unfold pack_fields, adts_syntax, header_bytes. cbn [fold_left fst snd].
    change (2 ^ 12) with 4096. change (2 ^ 1) with 2. change (2 ^ 2) with 4. change (2 ^ 3) with 8. change (2 ^ 4) with 16.
    change (2 ^ 11) with 2048. change (2 ^ 13) with 8192. clear. lia.
  - unfold header_bytes, bytes_ok, byte_ok. repeat (apply Forall_cons; [lia|]). apply Forall_nil.
Qed.

Lemma lor_add a b n : 0 <= n -> 0 <= b < 2 ^ n -> Z.lor (Z.shiftl a n) b = a * 2 ^ n + b.
Proof.
  intros Hn Hb. rewrite <- Z.shiftl_mul_pow2 by lia. rewrite <- Z.lxor_lor; [symmetry; apply Z.add_nocarry_lxor|].
  all: apply Z.bits_inj'; intros i Hi; rewrite Z.land_spec, Z.bits_0;
    destruct (Z_lt_le_dec i n); [rewrite Z.shiftl_spec_low by lia; reflexivity|].
  all: rewrite (Z.testbit_eqb b i) by lia; rewrite Z.div_small by (split; [lia|]; eapply Z.lt_le_trans; [apply Hb|apply Z.pow_le_mono_r; lia]); apply andb_false_r.
Qed.

Lemma land_ones_mod a n m : m = 2 ^ n - 1 -> 0 <= n -> Z.land a m = a mod 2 ^ n.
Proof. intros -> Hn. rewrite <- Z.land_ones by exact Hn. f_equal. now rewrite Z.ones_equiv. Qed.

(** The fields of a header as sums. *)
Lemma parse_header_sum b0 b1 b2 b3 b4 b5 rest : byte_ok b0 -> byte_ok b1 -> byte_ok b2 -> byte_ok b3 -> byte_ok b4 -> byte_ok b5 ->
  1 <= zlen rest ->
  parse_header (b0 :: b1 :: b2 :: b3 :: b4 :: b5 :: rest) =
  if (b0 =? 255) && (240 <=? b1) then
    match adts_frequency (b2 / 4 mod 16) with
    | Some hz => Ok (mkAi (b3 mod 4 * 2048 + b4 * 8 + b5 / 32) (b2 / 64) hz (adts_channels (b2 mod 2 * 4 + b3 / 64)))
    | None => Err EValue
    end
  else Err EValue.
Proof.
  intros H0 H1 H2 H3 H4 H5 L. unfold byte_ok in *. unfold parse_header, MIN_ADTS_HEADER_SIZE. rewrite !zlen_cons.
  rewrite (proj2 (Z.ltb_ge _ _)) by lia. cbn [nth].
  assert (E1 : (Z.land b1 0xf0 =? 0xf0) = (240 <=? b1)).
  { assert (Z.land b1 0xf0 = b1 / 16 * 16) as ->; [|lia].
    assert (forallb (fun b => Z.land b 0xf0 =? b / 16 * 16) (map Z.of_nat (seq 0 256)) = true) as T by (vm_compute; reflexivity).
    rewrite forallb_forall in T. apply Z.eqb_eq, T. rewrite in_map_iff. exists (Z.to_nat b1). rewrite in_seq. lia. }
  rewrite E1. destruct (b0 =? 255); [|reflexivity]. destruct (240 <=? b1); [|reflexivity]. cbn [negb orb andb].
  rewrite !Z.shiftr_div_pow2 by lia. change (2 ^ 6) with 64. change (2 ^ 2) with 4. change (2 ^ 5) with 32.
  rewrite (land_ones_mod (b2 / 4) 4 0x0f), (land_ones_mod (b2 / 64) 2 0x03), (land_ones_mod b2 1 0x01), (land_ones_mod (b3 / 64) 2 0x03),
    (land_ones_mod b3 2 0x03), (land_ones_mod (b5 / 32) 3 0x07) by (reflexivity || lia).
  change (2 ^ 4) with 16. change (2 ^ 2) with 4. change (2 ^ 1) with 2. change (2 ^ 3) with 8.
  rewrite lor_add by lia. change (2 ^ 2) with 4.
  replace (Z.shiftl b4 3) with (b4 * 8) by (rewrite Z.shiftl_mul_pow2 by lia; reflexivity).
  replace (Z.lor (Z.shiftl (b3 mod 4) 11) (b4 * 8)) with (Z.shiftl (b3 mod 4 * 256 + b4) 3).
  2:{ rewrite lor_add by lia. rewrite Z.shiftl_mul_pow2 by lia. change (2 ^ 3) with 8. change (2 ^ 11) with 2048. lia. }
  rewrite lor_add by lia. change (2 ^ 3) with 8.
  assert (Ef : forall n, 0 <= n < 16 -> nth_error SAMPLE_FREQUENCIES (Z.to_nat n) = adts_frequency n).
  { intros n Hn. assert (forallb (fun m => match nth_error SAMPLE_FREQUENCIES m, adts_frequency (Z.of_nat m) with
      | Some a, Some b => a =? b | None, None => true | _, _ => false end) (seq 0 16) = true) as T by (vm_compute; reflexivity).
    rewrite forallb_forall in T. specialize (T (Z.to_nat n)). rewrite in_seq, Z2Nat.id in T by lia.
    specialize (T ltac:(lia)). destruct nth_error, adts_frequency; (discriminate || (f_equal; lia) || reflexivity). }
  assert (Ec : forall n, 0 <= n < 8 -> nth_error CHANNEL_COUNTS (Z.to_nat n) = Some (adts_channels n)).
  { intros n Hn. assert (forallb (fun m => match nth_error CHANNEL_COUNTS m with Some a => a =? adts_channels (Z.of_nat m) | None => false end)
      (seq 0 8) = true) as T by (vm_compute; reflexivity).
    rewrite forallb_forall in T. specialize (T (Z.to_nat n)). rewrite in_seq, Z2Nat.id in T by lia.
    specialize (T ltac:(lia)). destruct nth_error; [f_equal; lia|discriminate]. }
  rewrite Ef, Ec by lia. destruct (adts_frequency (b2 / 4 mod 16)) as [hz|]; [|reflexivity].
  do 2 f_equal; [lia|lia|]. f_equal. lia.
Qed.

Lemma header_parses f rest : fields_ok f ->
  parse_header (adts_header f ++ rest) =
  match adts_frequency (af_frequency f) with Some hz => Ok (fields_info f hz) | None => Err EValue end.
Proof.
  intros H. rewrite header_eq by exact H. unfold fields_ok, adts_syntax in H. rewrite !Forall_cons_iff in H. cbn [fst snd] in H.
  destruct H as (_ & H1 & H2 & H3 & H4 & H5 & H6 & H7 & H8 & H9 & H10 & H11 & H12 & H13 & H14 & _).
  change (2 ^ 1) with 2 in *. change (2 ^ 2) with 4 in *. change (2 ^ 3) with 8 in *. change (2 ^ 4) with 16 in *.
  change (2 ^ 11) with 2048 in *. change (2 ^ 13) with 8192 in *.
  unfold header_bytes. cbn [app]. rewrite parse_header_sum; [|unfold byte_ok; lia ..|rewrite zlen_cons; pose proof (zlen_nonneg rest); lia].
  rewrite (proj2 (Z.leb_le _ _)) by lia. change (255 =? 255) with true. cbn [andb].
  replace ((af_profile f * 64 + af_frequency f * 4 + af_private f * 2 + af_channels f / 4) / 4 mod 16) with (af_frequency f) by lia.
  destruct (adts_frequency (af_frequency f)) as [hz|]; [|reflexivity]. unfold fields_info. do 2 f_equal; [lia|lia|]. f_equal. lia.
Qed.

(** A header that parses is one of these. *)
Lemma header_complete d i : bytes_ok d -> parse_header d = Ok i ->
  exists f rest, fields_ok f /\ d = adts_header f ++ rest /\ adts_frequency (af_frequency f) = Some (ai_rate i) /\ i = fields_info f (ai_rate i).
Proof.
  intros H P. assert (L : 7 <= zlen d).
  { unfold parse_header, MIN_ADTS_HEADER_SIZE in P. destruct (zlen d <? 7) eqn:E; [discriminate|]. lia. }
  destruct d as [|b0 [|b1 [|b2 [|b3 [|b4 [|b5 [|b6 rest]]]]]]]; try (cbv in L; congruence).
  unfold bytes_ok in H. rewrite !Forall_cons_iff in H. destruct H as (H0 & H1 & H2 & H3 & H4 & H5 & H6 & _).
  pose proof (zlen_nonneg rest) as Lr.
  rewrite parse_header_sum in P by (assumption || rewrite zlen_cons; lia). unfold byte_ok in *.
  destruct ((b0 =? 255) && (240 <=? b1)) eqn:E; [|discriminate].
  destruct (adts_frequency (b2 / 4 mod 16)) as [hz|] eqn:F; [|discriminate]. assert (i = mkAi (b3 mod 4 * 2048 + b4 * 8 + b5 / 32) (b2 / 64) hz (adts_channels (b2 mod 2 * 4 + b3 / 64))) by congruence. clear P. subst i. cbn [ai_rate].
  exists (mkAf (b1 / 8 mod 2) (b1 / 2 mod 4) (b1 mod 2) (b2 / 64) (b2 / 4 mod 16) (b2 / 2 mod 2) (b2 mod 2 * 4 + b3 / 64)
            (b3 / 32 mod 2) (b3 / 16 mod 2) (b3 / 8 mod 2) (b3 / 4 mod 2) (b3 mod 4 * 2048 + b4 * 8 + b5 / 32) (b5 mod 32 * 64 + b6 / 4) (b6 mod 4)), rest.
  assert (K : fields_ok (mkAf (b1 / 8 mod 2) (b1 / 2 mod 4) (b1 mod 2) (b2 / 64) (b2 / 4 mod 16) (b2 / 2 mod 2) (b2 mod 2 * 4 + b3 / 64)
            (b3 / 32 mod 2) (b3 / 16 mod 2) (b3 / 8 mod 2) (b3 / 4 mod 2) (b3 mod 4 * 2048 + b4 * 8 + b5 / 32) (b5 mod 32 * 64 + b6 / 4) (b6 mod 4))).
  { unfold fields_ok, adts_syntax. cbn [af_id af_layer af_no_crc af_profile af_frequency af_private af_channels af_original af_home af_copyright
      af_copyright_start af_length af_fullness af_blocks]. clear F E.
    repeat (apply Forall_cons; [cbn [fst snd]; change (2 ^ 12) with 4096; change (2 ^ 1) with 2; change (2 ^ 2) with 4; change (2 ^ 3) with 8;
      change (2 ^ 4) with 16; change (2 ^ 11) with 2048; change (2 ^ 13) with 8192; lia|]). apply Forall_nil. }
  split; [exact K|]. rewrite header_eq by exact K. unfold header_bytes, fields_info.
  cbn [af_id af_layer af_no_crc af_profile af_frequency af_private af_channels af_original af_home af_copyright af_copyright_start af_length af_fullness af_blocks].
  split; [|split; [exact F|reflexivity]]. clear K F. cbn [app].
  repeat (apply f_equal2; [lia|]). reflexivity.
Qed.

Lemma header_errors d : is_ok (parse_header d) = true \/ parse_header d = Err EValue.
Proof.
  unfold parse_header. destruct (_ <? _); [now right|]. destruct (_ || _); [now right|].
  destruct nth_error; [|now right]. destruct nth_error; [now left|now right].
Qed.

(** ** Frames *)
Lemma src_read_app n a b : zlen a = n -> src_read n (buffered (a ++ b)) = (buffered b, Ok a).
Proof.
  intros L. pose proof (zlen_nonneg a). unfold src_read. rewrite (proj2 (Z.eqb_neq n (-1))), (proj2 (Z.ltb_ge n 0)) by lia.
  destruct (a ++ b) as [|x d] eqn:E; [apply app_eq_nil in E as [-> ->]; reflexivity|]. cbn [buffered]. rewrite <- E. subst n.
  rewrite zfirst_app, zskip_app, zlen_app. pose proof (zlen_nonneg b). destruct b as [|y b].
  - change (zlen (@nil Z)) with 0. rewrite (proj2 (Z.leb_le _ _)) by lia. reflexivity.
  - rewrite zlen_cons in *. pose proof (zlen_nonneg b). rewrite (proj2 (Z.leb_gt _ _)) by lia. reflexivity.
Qed.

Lemma pipe_read_app n a s b pos : zlen a = n -> fragments_ok s -> concat s = a ++ b ->
  exists s', pipe_read n (mkPipe s pos) = (mkPipe s' (pos + n), Ok a) /\ concat s' = b /\ fragments_ok s'.
Proof.
  intros L F E. pose proof (zlen_nonneg a). pose proof (zlen_nonneg b).
  destruct (pipe_read_ok n s pos) as (s' & P & E' & F' & _); [rewrite E, zlen_app; lia|exact F|].
  exists s'. rewrite P, E', E. subst n. now rewrite zfirst_app, zskip_app.
Qed.

Lemma header_len f : fields_ok f -> zlen (adts_header f) = 7.
Proof. reflexivity. Qed.

Lemma frame_split f rest : frame_ok f -> frame_bytes f ++ rest = adts_header (fr_fields f) ++ (fr_body f ++ rest).
Proof. intros _. unfold frame_bytes. now rewrite <- app_assoc. Qed.

Lemma frame_parse f : frame_ok f -> parse_header (adts_header (fr_fields f)) = Ok (frame_info f).
Proof.
  intros (K & Hz & _). pose proof (header_parses (fr_fields f) [] K) as P. rewrite app_nil_r in P. rewrite P, Hz. reflexivity.
Qed.

Definition after (l : list (bytes * adts_info)) (y : yielded (bytes * adts_info)) : yielded (bytes * adts_info) := (l ++ fst y, snd y).

Lemma frames_buffered fs : Forall frame_ok fs -> forall d fuel,
  adts_frames src_read (buffered (flat_map frame_bytes fs ++ d)) (length fs + fuel) =
  after (map (fun f => (frame_bytes f, frame_info f)) fs) (adts_frames src_read (buffered d) fuel).
Proof.
  induction fs as [|f fs IH]; intros H d fuel.
  - cbn [flat_map app length Nat.add map]. unfold after. cbn [app]. now destruct adts_frames.
  - apply Forall_cons_iff in H as [Hf H]. cbn [flat_map length Nat.add adts_frames]. rewrite <- app_assoc, frame_split by exact Hf.
    rewrite src_read_app by reflexivity. rewrite (header_len (fr_fields f)) by apply Hf. cbn [Z.eqb]. rewrite frame_parse by exact Hf.
    rewrite src_read_app by (destruct Hf as (_ & _ & L); cbn [ai_size frame_info fields_info]; lia).
    rewrite IH by exact H. unfold after. cbn [map app fst snd]. reflexivity.
Qed.

Lemma frames_end n : adts_frames src_read (buffered []) (S n) = ([], None).
Proof. reflexivity. Qed.

Lemma frames_file fs fuel : Forall frame_ok fs -> (length fs < fuel)%nat ->
  adts_frames src_read (buffered (flat_map frame_bytes fs)) fuel = (map (fun f => (frame_bytes f, frame_info f)) fs, None).
Proof.
  intros H L. pose proof (frames_buffered fs H [] (fuel - length fs)) as E. rewrite app_nil_r in E.
  replace (length fs + (fuel - length fs))%nat with fuel in E by lia. rewrite E.
  destruct (fuel - length fs)%nat as [|n] eqn:N; [lia|]. unfold after. rewrite frames_end. cbn [fst snd]. now rewrite app_nil_r.
Qed.

(** The end of a file in the middle of a frame: what is there becomes a frame; in the middle of a header: ValueError. *)
Lemma frames_cut fs f n fuel : Forall frame_ok fs -> frame_ok f -> 0 < n < zlen (frame_bytes f) -> (S (length fs) < fuel)%nat ->
  adts_frames src_read (buffered (flat_map frame_bytes fs ++ zfirst n (frame_bytes f))) fuel =
  (map (fun f => (frame_bytes f, frame_info f)) fs ++ (if 7 <=? n then [(zfirst n (frame_bytes f), frame_info f)] else []),
   if 7 <=? n then None else Some EValue).
Proof.
  intros H Hf Hn L. replace fuel with (length fs + (fuel - length fs))%nat by lia. rewrite frames_buffered by exact H.
  destruct (fuel - length fs)%nat as [|m] eqn:N; [lia|]. assert (M : (0 < m)%nat) by lia. clear N L fuel.
  unfold frame_bytes in *. rewrite zlen_app, header_len in Hn by apply Hf. destruct (7 <=? n) eqn:E.
  - rewrite zfirst_app_ge by (rewrite header_len by apply Hf; lia). rewrite header_len by apply Hf.
    set (b := zfirst (n - 7) (fr_body f)). assert (Lb : zlen b = n - 7) by (unfold b; rewrite zlen_zfirst; lia).
    cbn [adts_frames]. rewrite src_read_app by reflexivity. rewrite (header_len (fr_fields f)) by apply Hf. cbn [Z.eqb]. rewrite frame_parse by exact Hf.
    destruct Hf as (_ & _ & Lf). cbn [ai_size frame_info fields_info].
    assert (src_read (af_length (fr_fields f) - 7) (buffered b) = (buffered [], Ok b)) as ->.
    { unfold src_read. rewrite (proj2 (Z.eqb_neq _ _)), (proj2 (Z.ltb_ge _ _)) by lia. destruct b as [|x b']; [reflexivity|]. cbn [buffered].
      rewrite (proj2 (Z.leb_le _ _)) by lia. rewrite zfirst_all by lia. reflexivity. }
    destruct m as [|m]; [lia|]. rewrite frames_end. reflexivity.
  - rewrite zfirst_app_le by (rewrite header_len by apply Hf; lia).
    set (b := zfirst n (adts_header (fr_fields f))). assert (Lb : zlen b = n) by (unfold b; rewrite zlen_zfirst, header_len by (lia || apply Hf); lia).
    cbn [adts_frames].
    assert (src_read MIN_ADTS_HEADER_SIZE (buffered b) = ([], Ok b)) as ->.
    { unfold src_read, MIN_ADTS_HEADER_SIZE. cbn [Z.eqb Z.ltb Z.compare]. destruct b as [|x b']; [reflexivity|]. cbn [buffered].
      rewrite (proj2 (Z.leb_le _ _)) by lia. rewrite zfirst_all by lia. reflexivity. }
    rewrite (proj2 (Z.eqb_neq _ _)) by lia. unfold parse_header, MIN_ADTS_HEADER_SIZE. rewrite (proj2 (Z.ltb_lt (zlen b) 7)) by lia.
    unfold after. cbn [fst snd]. reflexivity.
Qed.

(** From a pipe: the same frames, whatever the fragments; then an EOFError. *)
Lemma frames_pipe fs : Forall frame_ok fs -> forall s pos fuel, fragments_ok s -> concat s = flat_map frame_bytes fs -> (length fs < fuel)%nat ->
  adts_frames pipe_read (mkPipe s pos) fuel = (map (fun f => (frame_bytes f, frame_info f)) fs, Some EEof).
Proof.
  induction fs as [|f fs IH]; intros H s pos fuel F E L; destruct fuel as [|fuel]; [cbn [length] in L; lia| |cbn [length] in L; lia|]; cbn [adts_frames].
  - rewrite pipe_read_short; [reflexivity| |exact F]. rewrite E. cbv. reflexivity.
  - apply Forall_cons_iff in H as [Hf H]. cbn [flat_map] in E. rewrite frame_split in E by exact Hf.
    destruct (pipe_read_app MIN_ADTS_HEADER_SIZE (adts_header (fr_fields f)) s _ pos eq_refl F E) as (s1 & -> & E1 & F1).
    rewrite (header_len (fr_fields f)) by apply Hf. cbn [Z.eqb]. rewrite frame_parse by exact Hf.
    destruct (pipe_read_app (ai_size (frame_info f) - 7) (fr_body f) s1 (flat_map frame_bytes fs) (pos + MIN_ADTS_HEADER_SIZE)) as (s2 & -> & E2 & F2);
      [destruct Hf as (_ & _ & Lf); cbn [ai_size frame_info fields_info]; lia|exact F1|exact E1|].
    rewrite (IH H) by (assumption || (cbn [length] in L; lia)). reflexivity.
Qed.

(** ** Times of the frames *)
Lemma fraction_spec n d : 0 < n -> 0 < d ->
  exists g, 0 < g /\ n = g * fst (fraction n d) /\ d = g * snd (fraction n d) /\ 0 < fst (fraction n d) /\ 0 < snd (fraction n d) /\
    Z.gcd (fst (fraction n d)) (snd (fraction n d)) = 1.
Proof.
  intros Hn Hd. unfold fraction. cbn [fst snd]. set (g := Z.gcd n d).
  assert (0 < g) by (pose proof (Z.gcd_nonneg n d); assert (g <> 0) by (intros E; apply Z.gcd_eq_0_l in E; lia); unfold g in *; lia).
  assert (N : n = g * (n / g)) by (apply Z_div_exact_full_2; [lia|]; apply Z.mod_divide; [lia|apply Z.gcd_divide_l]).
  assert (D : d = g * (d / g)) by (apply Z_div_exact_full_2; [lia|]; apply Z.mod_divide; [lia|apply Z.gcd_divide_r]).
  exists g. repeat split; [assumption|exact N|exact D|clear D; nia|clear N; nia|].
  apply Z.gcd_div_gcd; [lia|reflexivity].
Qed.

Lemma normal_frame k hz n c : clock_ok k -> slow (hz, 1) -> 0 < n ->
  normalise k (grid k (fraction hz n) c) (hz, 1) = grid k (hz, 1) (c * n).
Proof.
  intros K (Hz & _ & Hs) Hn. cbn [fst snd] in Hz, Hs. destruct (fraction_spec hz n Hz Hn) as (g & Hg & En & Ed & Pn & Pd & _).
  unfold normalise. cbn [fst snd]. unfold grid at 2. cbn [fst snd]. f_equal.
  destruct (K _ _ Pn Pd) as [F _]. specialize (F c).
  destruct (K hz 1 Hz eq_refl) as [_ T]. specialize (T (grid k (fraction hz n) c)). unfold grid in *.
  set (ns := from_count k c (fst (fraction hz n)) (snd (fraction hz n))) in *. set (x := to_count k ns hz 1) in *.
  set (p := fst (fraction hz n)) in *. set (q := snd (fraction hz n)) in *. clearbody ns x p q.
  apply (squeeze _ _ second); [reflexivity|]. rewrite !Z.mul_1_r in *.
  assert (Z.abs (ns * hz - c * n * second) <= hz).
  { replace (ns * hz - c * n * second) with (g * (ns * p - c * second * q)) by (rewrite En, Ed; ring).
    rewrite Z.abs_mul, (Z.abs_eq g), En by lia. clear - F Hg. nia. }
  clear F En Ed. unfold second in *. lia.
Qed.

Lemma emit_spec k t fs : clock_ok k -> slow (at_sample_rate t, 1) -> forall n, 0 < n -> at_rate_ t = fraction (at_sample_rate t) n -> forall c,
  map wg_data (adts_emit k t c fs) = map fst fs /\ Forall (fun g => wg_template g = t) (adts_emit k t c fs) /\
  map wg_origin (adts_emit k t c fs) = map (fun m => grid k (at_sample_rate t, 1) (m * n)) (between c (c + zlen fs)).
Proof.
  intros K S n Hn E. induction fs as [|[d i] fs IH]; intros c; cbn [adts_emit map].
  - rewrite zlen_nil, Z.add_0_r. unfold between. rewrite Z.sub_diag. repeat split. constructor.
  - destruct (IH (c + 1)) as (I1 & I2 & I3). rewrite zlen_cons. pose proof (zlen_nonneg fs). rewrite between_cons by lia. cbn [map wg_data wg_origin fst].
    split; [now rewrite I1|]. split; [constructor; [reflexivity|exact I2]|].
    rewrite I3. replace (c + 1 + zlen fs) with (c + (1 + zlen fs)) by lia. f_equal. rewrite E. exact (normal_frame k _ n c K S Hn).
Qed.

(** The grains of frames. *)
Lemma grains_of_frames {St} k first (read : reader St) t origin st fuel f fs e :
  clock_ok k -> Forall frame_ok (f :: fs) ->
  (match at_samples t with Some n => 0 < n | None => True end) ->
  adts_frames read st fuel = (map (fun f => (frame_bytes f, frame_info f)) (f :: fs), e) ->
  exists gs t' c, adts_grains k first read t origin st fuel = (gs, e) /\
    adts_meta (at_samples t) f t' /\
    map wg_data gs = map frame_bytes (f :: fs) /\ Forall (fun g => wg_template g = t') gs /\
    c = first (normalise k origin (at_sample_rate t', 1)) (at_rate_ t') /\
    map wg_origin gs =
      map (fun n => grid k (at_sample_rate t', 1) (n * match at_samples t with Some n => n | None => 1024 end)) (between c (c + zlen (f :: fs))).
Proof.
  intros K H S E. cbn [map] in E. unfold adts_grains. rewrite E. clear E.
  set (n := match at_samples t with Some n => n | None => 1024 end). assert (Hn : 0 < n) by (unfold n; destruct (at_samples t); lia).
  unfold adts_update. fold n. rewrite (proj2 (Z.eqb_neq n 0)) by lia.
  apply Forall_cons_iff in H as [Hf H].
  assert (Hz : 0 < fr_hz f /\ 2 * fr_hz f < second).
  { destruct Hf as (_ & Hz & _). unfold adts_frequency in Hz.
    repeat match type of Hz with (match ?x with _ => _ end) = _ => destruct x; try discriminate end; injection Hz as <-; split; reflexivity. }
  cbn [frame_info fields_info ai_rate ai_channels].
  destruct (fraction_spec (fr_hz f) n (proj1 Hz) Hn) as (g & Hg & En & Ed & Pn & Pd & Gd).
  set (t' := mkAt (adts_channels (af_channels (fr_fields f))) (fr_hz f) (Some n) (fraction (fr_hz f) n) (snd (fraction (fr_hz f) n), fst (fraction (fr_hz f) n))).
  set (c := first (normalise k origin (at_sample_rate t', 1)) (at_rate_ t')).
  exists (adts_emit k t' c (map (fun f => (frame_bytes f, frame_info f)) (f :: fs))), t', c.
  destruct (emit_spec k t' (map (fun f => (frame_bytes f, frame_info f)) (f :: fs)) K) with (n := n) (c := c) as (I1 & I2 & I3).
  - split; [apply Hz|]. split; [reflexivity|]. cbn [fst snd t' at_sample_rate]. lia.
  - exact Hn.
  - reflexivity.
  - split; [reflexivity|]. split; [|split; [|split; [exact I2|split; [reflexivity|]]]].
    + unfold adts_meta. fold n. cbn [t' at_channels at_sample_rate at_samples at_rate_ at_duration]. repeat split; [|exact Gd].
      set (p := fst (fraction (fr_hz f) n)) in *. set (q := snd (fraction (fr_hz f) n)) in *. clearbody p q. clear - En Ed. rewrite Ed, En. ring.
    + rewrite I1, map_map. reflexivity.
    + rewrite I3. rewrite zlen_map. reflexivity.
Qed.

Lemma grains_file_adts k first t origin fuel f fs : clock_ok k -> Forall frame_ok (f :: fs) ->
  (match at_samples t with Some n => 0 < n | None => True end) -> (length (f :: fs) < fuel)%nat ->
  exists gs t' c, adts_grains k first src_read t origin (buffered (flat_map frame_bytes (f :: fs))) fuel = (gs, None) /\
    adts_meta (at_samples t) f t' /\ map wg_data gs = map frame_bytes (f :: fs) /\ Forall (fun g => wg_template g = t') gs /\
    c = first (normalise k origin (at_sample_rate t', 1)) (at_rate_ t') /\
    map wg_origin gs =
      map (fun n => grid k (at_sample_rate t', 1) (n * match at_samples t with Some n => n | None => 1024 end)) (between c (c + zlen (f :: fs))).
Proof. intros K H S L. apply grains_of_frames; auto. now apply frames_file. Qed.
