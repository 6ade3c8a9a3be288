(** Property theorems about decoding: C05, C08-C15, C22, C52. *)
From Verif Require Import Base Utf8 GsfPrim GsfBlock GsfDecode GsfEncode GsfBlockProofs GsfSpec GsfFileSpec
  GsfEncodeProofs GsfTermProofs GsfFileProofs GsfFileFacts GsfFileMore GsfTruncProofs GsfErrProofs GsfExamples.

(** C05. Every grain that fits the format can be encoded; wherever its bytes are placed in an input, one step of the
    reader consumes exactly them and returns the grain in normal form, with its payload; grains in normal form come
    back unchanged. *)
Theorem C05_encodable : forall major local g, grain_ok g -> exists bs, enc_grain major local g = Ok bs.
Proof. exact enc_grain_ok. Qed.
Print Assumptions C05_encodable.

Theorem C05_grain_roundtrip : forall k major local g bs pre rest strict fwd,
  u16 local -> grain_ok g -> enc_grain major local g = Ok bs -> zlen bs < 4294967296 ->
  k_ids k = None ->
  exists i, grain_turn k major (mkFile (pre ++ bs ++ rest) 0 strict fwd) (zlen pre) =
              Ok (TYield i, zlen pre + zlen bs) /\
    view (pre ++ bs ++ rest) i = mode_data (k_mode k) (meta_of major g, opt_bytes (g_data g), local) /\
    payload_form k (pre ++ bs ++ rest) (i_data i).
Proof. exact grain_roundtrip. Qed.
Print Assumptions C05_grain_roundtrip.

Theorem C05_normal_form_unchanged : forall major g, normal_form major g -> meta_of major g = meta_raw g.
Proof. exact normal_form_id. Qed.
Print Assumptions C05_normal_form_unchanged.

Example C05_example :
  grain_ok ex_video /\
  (match enc_grain 8 3 ex_video with
   | Ok bs => match grain_turn ex_cfg 8 (ex_in ([1; 2] ++ bs ++ [3])) 2 with
              | Ok (TYield i, q) => q = 2 + zlen bs /\ i_data i = PBytes [1; 2; 3; 4; 5; 6; 7; 8; 9; 10] /\
                                    i_meta i = meta_of 8 ex_video /\ m_sync (i_meta i) = -7 /\ i_local i = 3
              | _ => False
              end
   | Err _ => False
   end) /\
  (match enc_grain 7 3 ex_video with
   | Ok bs => match grain_turn ex_cfg 7 (ex_in bs) 0 with
              | Ok (TYield i, q) => m_sync (i_meta i) = 7
              | _ => False
              end
   | Err _ => False
   end).
Proof. split; [exact ex_video_ok|]. vm_compute. repeat split; reflexivity. Qed.

(** C08. Asking for some local ids gives exactly the items with those ids. *)
Theorem C08_filter : forall x ids mode concat back fwd' lazy strict fwd, gsf_ok x ->
  exists l l' s,
    decode_file (mkCfg None mode concat back fwd' lazy) (mkFile (gsf_bytes x) 0 strict fwd) = Ok (gsf_sess x, (l, s, Done)) /\
    decode_file (mkCfg (Some ids) mode concat back fwd' lazy) (mkFile (gsf_bytes x) 0 strict fwd) = Ok (gsf_sess x, (l', s, Done)) /\
    l' = filter (fun i => existsb (Z.eqb (i_local i)) ids) l.
Proof. exact decode_filter. Qed.
Print Assumptions C08_filter.

Example C08_example : gsf_ok ex_file /\
  match decode_file (mkCfg (Some [2; 5]) LoadImmediately true true false false) (ex_in (gsf_bytes ex_file)) with
  | Ok (s, (l, s', o)) => map i_local l = [2; 2] /\ map i_data l = [PBytes [9; 8; 7; 6; 5; 4]; PNone] /\ o = Done
  | Err _ => False
  end.
Proof. split; [exact ex_file_ok|]. vm_compute. repeat split; reflexivity. Qed.

(** C09. Two well-formed files that say the same up to unknown blocks (at top level, before the head block, or among
    the children of head, segm, gbhd, vghd, cghd and grai blocks) decode to the same headers and grains; and inserting
    an unknown block at top level gives such a file. *)
Theorem C09_unknown_blocks : forall k x y strict fwd, gsf_ok x -> gsf_ok y -> same_logical x y ->
  exists s0 s v, decodes_to k strict fwd (gsf_bytes x) s0 s v /\ decodes_to k strict fwd (gsf_bytes y) s0 s v.
Proof. exact unknown_blocks. Qed.
Print Assumptions C09_unknown_blocks.

Theorem C09_insert : forall x a b c, gsf_ok x -> gf_pieces x = a ++ b -> unknown_in [T_grai] c -> small_payload (snd c) ->
  gsf_ok (with_pieces x (a ++ POther c :: b)) /\ same_logical x (with_pieces x (a ++ POther c :: b)).
Proof. exact insert_ok. Qed.
Print Assumptions C09_insert.

(** The example file has unknown blocks whose payload looks like a grain tag. *)
Example C09_example :
  match decode_file ex_cfg (ex_in (gsf_bytes ex_file)) with
  | Ok (s, (l, s', o)) =>
      s_head s = Some ex_head /\ map i_local l = [1; 2; 2] /\ map i_meta l = map (meta_of 8) [ex_video; ex_audio; ex_event]
  | Err _ => False
  end.
Proof. vm_compute. repeat split; reflexivity. Qed.

(** C10. Loading modes: same headers, metadata, local ids and end of iteration; the same payload bytes unless one of
    the modes is never-load, in which case there are none; and the payload takes the form the mode asks for. *)
Theorem C10_modes_agree : forall k k' x strict fwd strict' fwd', gsf_ok x ->
  k_ids k = k_ids k' -> k_concat k = k_concat k' ->
  exists l l' s,
    decode_file k (mkFile (gsf_bytes x) 0 strict fwd) = Ok (gsf_sess x, (l, s, Done)) /\
    decode_file k' (mkFile (gsf_bytes x) 0 strict' fwd') = Ok (gsf_sess x, (l', s, Done)) /\
    map i_meta l = map i_meta l' /\ map i_local l = map i_local l' /\
    (k_mode k <> LoadNever -> k_mode k' <> LoadNever ->
       map (view (gsf_bytes x)) l = map (view (gsf_bytes x)) l') /\
    (k_mode k = LoadNever -> Forall (fun i => loaded (gsf_bytes x) (i_data i) = []) l) /\
    Forall (fun i => payload_form k (gsf_bytes x) (i_data i)) l /\ Forall (fun i => payload_form k' (gsf_bytes x) (i_data i)) l'.
Proof. exact modes_agree. Qed.
Print Assumptions C10_modes_agree.

Example C10_example :
  match decode_file (mkCfg None LoadDefer true true false false) (ex_in (gsf_bytes ex_file)) with
  | Ok (s, (l, s', o)) =>
      map (fun i => loaded (gsf_bytes ex_file) (i_data i)) l =
        [[1; 2; 3; 4; 5; 6; 7; 8; 9; 10]; [9; 8; 7; 6; 5; 4]; []] /\
      match i_data (hd (mkItem (meta_of 8 ex_video) PNone 0) l) with PIOBytes _ 10 => True | _ => False end
  | Err _ => False
  end.
Proof. vm_compute. repeat split; reflexivity. Qed.

(** C11. Concatenations of complete files. *)
Theorem C11_concatenation : forall k strict fwd x xs, k_concat k = true ->
  Forall gsf_ok (x :: xs) -> Forall single (x :: xs) ->
  exists vs, Forall2 (fun y v => decodes_to k strict fwd (gsf_bytes y) (gsf_sess y) (gsf_sess y) v) (x :: xs) vs /\
    decodes_to k strict fwd (flat_map gsf_bytes (x :: xs)) (gsf_sess x) (gsf_sess (last xs x)) (concat vs).
Proof. exact decode_concat. Qed.
Print Assumptions C11_concatenation.

(** Without support for concatenation only the first file (a complete one, with its terminator) is read. *)
Theorem C11_first_only : forall k x a b rest strict fwd, gsf_ok x -> gf_pieces x = a ++ PEnd :: b -> k_concat k = false ->
  exists l,
    decode_file k (mkFile (gsf_bytes x ++ rest) 0 strict fwd) = Ok (gsf_sess x, (l, gsf_sess x, Done)) /\
    map (view (gsf_bytes x ++ rest)) l =
    map (mode_data (k_mode k)) (select (k_ids k) (contents false (gf_major x) a)).
Proof. exact terminator_stops. Qed.
Print Assumptions C11_first_only.

Example C11_example :
  Forall gsf_ok [ex_file; ex_file9] /\ Forall single [ex_file; ex_file9] /\
  match decode_file ex_cfg (ex_in (gsf_bytes ex_file ++ gsf_bytes ex_file9)) with
  | Ok (s, (l, s', o)) => s_major s = 8 /\ map i_local l = [1; 2; 2; 2] /\ s_major s' = 9 /\ o = Done
  | Err _ => False
  end /\
  match decode_file (mkCfg None LoadImmediately false true false false) (ex_in (gsf_bytes ex_file9 ++ [1; 2; 3])) with
  | Ok (s, (l, s', o)) => map i_local l = [2] /\ o = Done
  | Err _ => False
  end.
Proof.
  split; [exact (Forall_cons _ ex_file_ok (Forall_cons _ ex_file9_ok (Forall_nil _)))|].
  split; [repeat constructor|]. split; vm_compute; repeat split; reflexivity.
Qed.

(** C12. The terminator: with concatenation support off nothing after it matters (whatever bytes follow); with it on
    it changes nothing. *)
Theorem C12_terminator_stops : forall k x a b rest strict fwd, gsf_ok x -> gf_pieces x = a ++ PEnd :: b ->
  k_concat k = false ->
  exists l,
    decode_file k (mkFile (gsf_bytes x ++ rest) 0 strict fwd) = Ok (gsf_sess x, (l, gsf_sess x, Done)) /\
    map (view (gsf_bytes x ++ rest)) l =
    map (mode_data (k_mode k)) (select (k_ids k) (contents false (gf_major x) a)).
Proof. exact terminator_stops. Qed.
Print Assumptions C12_terminator_stops.

Theorem C12_terminator_transparent : forall k x a b strict fwd, gsf_ok x -> gf_pieces x = a ++ PEnd :: b ->
  k_concat k = true ->
  exists s v, decodes_to k strict fwd (gsf_bytes x) (gsf_sess x) s v /\
              decodes_to k strict fwd (gsf_bytes (with_pieces x (a ++ b))) (gsf_sess x) s v.
Proof. exact terminator_transparent. Qed.
Print Assumptions C12_terminator_transparent.

Example C12_example :
  let twice := with_pieces ex_file9 (gf_pieces ex_file9 ++ gf_pieces ex_file9) in
  match decode_file ex_cfg (ex_in (gsf_bytes twice)) with
  | Ok (s, (l, s', o)) => map i_local l = [2; 2]
  | Err _ => False
  end /\
  match decode_file (mkCfg None LoadImmediately false true false false) (ex_in (gsf_bytes twice)) with
  | Ok (s, (l, s', o)) => map i_local l = [2]
  | Err _ => False
  end.
Proof. vm_compute. repeat split; reflexivity. Qed.

(** C13. A complete file cut anywhere after its header. *)
Theorem C13_truncation : forall k x n strict fwd, gsf_ok x -> single x ->
  zlen (header_bytes (gf_major x) (gf_minor x) (gf_pre x) (gf_head_payload x)) <= n < zlen (gsf_bytes x) ->
  exists whole pc lost l extra,
    gf_pieces x = whole ++ pc :: lost /\
    zlen (header_bytes (gf_major x) (gf_minor x) (gf_pre x) (gf_head_payload x)) + zlen (pieces_bytes whole) <= n /\
    n < zlen (header_bytes (gf_major x) (gf_minor x) (gf_pre x) (gf_head_payload x)) +
        zlen (pieces_bytes (whole ++ [pc])) /\
    decode_file k (mkFile (zfirst n (gsf_bytes x)) 0 strict fwd) = Ok (gsf_sess x, (l, gsf_sess x, Done)) /\
    map (view (zfirst n (gsf_bytes x))) l =
    map (mode_data (k_mode k)) (select (k_ids k) (contents (k_concat k) (gf_major x) whole)) ++ extra /\
    cut_grain (k_ids k) (gf_major x) pc extra.
Proof. exact decode_truncated. Qed.
Print Assumptions C13_truncation.

(** Cut in the data of the last grain: a short payload; cut in its metadata: no grain. *)
Example C13_example :
  let d := gsf_bytes ex_file9 in
  match decode_file ex_cfg (ex_in (zfirst (zlen d - 10) d)) with
  | Ok (s, (l, s', o)) => map i_data l = [PBytes [9; 8; 7; 6]] /\ o = Done
  | Err _ => False
  end /\
  match decode_file ex_cfg (ex_in (zfirst (zlen d - 30) d)) with
  | Ok (s, (l, s', o)) => l = [] /\ o = Done
  | Err _ => False
  end.
Proof. vm_compute. repeat split; reflexivity. Qed.

(** C14. Any byte string at all: the decoder raises, or stops after at most one grain per eight bytes; the model's
    bound on the number of steps is never reached. *)
Theorem C14_terminates : forall k data strict fwd,
  match decode_file k (mkFile data 0 strict fwd) with
  | Ok (_, (l, _, o)) => o <> Raised EFuel /\ 8 * zlen l <= zlen data
  | Err e => e <> EFuel
  end.
Proof. exact (fun k data strict fwd => decode_file_terminates k (mkFile data 0 strict fwd)). Qed.
Print Assumptions C14_terminates.

(** A block claiming to have size 3 after the header: skipped as eight bytes. *)
Example C14_example :
  match decode_file ex_cfg (ex_in (gsf_bytes (with_pieces ex_file9 []) ++ [97; 98; 99; 100; 3; 0; 0; 0] ++
                                   [97; 98; 99; 100; 255; 255; 255; 255; 1])) with
  | Ok (s, (l, s', o)) => l = [] /\ o = Done
  | Err _ => False
  end.
Proof. vm_compute. repeat split; reflexivity. Qed.

(** C15. The first twelve bytes. *)
Theorem C15_bad_type : forall k data strict fwd, bytes_ok data ->
  decode_file k (mkFile data 0 strict fwd) = Err EBadType <->
  8 <= zlen data /\ utf8_dec (zfirst 8 data) <> None /\ zfirst 8 data <> T_SSBBgrsg.
Proof. exact bad_type_iff. Qed.
Print Assumptions C15_bad_type.

Theorem C15_bad_version : forall k data strict fwd, bytes_ok data ->
  decode_file k (mkFile data 0 strict fwd) = Err EBadVersion <->
  12 <= zlen data /\ zfirst 8 data = T_SSBBgrsg /\ ~ (7 <= major_at data <= 9).
Proof. exact bad_version_iff. Qed.
Print Assumptions C15_bad_version.

Theorem C15_short : forall k data strict fwd, bytes_ok data ->
  decode_file k (mkFile data 0 strict fwd) = Err EEof <->
  zlen data < 8 \/ (zlen data < 12 /\ zfirst 8 data = T_SSBBgrsg).
Proof. exact header_eof_iff. Qed.
Print Assumptions C15_short.

Example C15_example :
  decode_file ex_cfg (ex_in [83; 83; 66; 66; 103; 114; 115; 104; 7]) = Err EBadType /\
  decode_file ex_cfg (ex_in (T_SSBBgrsg ++ [6; 0; 0; 0; 1; 2; 3])) = Err EBadVersion /\
  decode_file ex_cfg (ex_in (T_SSBBgrsg ++ [7; 0; 0])) = Err EEof /\
  decode_file ex_cfg (ex_in [255; 1; 1; 1; 1; 1; 1; 1]) = Err EDecode.
Proof. vm_compute. repeat split; reflexivity. Qed.

(** C22. The synchronous and asynchronous decoders on any of the inputs: [k_lazy] distinguishes the lazily loaded
    payloads of the async decoder from the sync ones, [strict] the readers that raise EOFError on a short read,
    [fwd]/[k_fwd] the forward-only stream wrappers and [k_back] whether the input can seek backwards. *)
Theorem C22_sync_async_agree : forall k k' x strict fwd strict' fwd', gsf_ok x ->
  k_ids k = k_ids k' -> k_concat k = k_concat k' -> k_mode k = k_mode k' ->
  exists l l' s,
    decode_file k (mkFile (gsf_bytes x) 0 strict fwd) = Ok (gsf_sess x, (l, s, Done)) /\
    decode_file k' (mkFile (gsf_bytes x) 0 strict' fwd') = Ok (gsf_sess x, (l', s, Done)) /\
    map (view (gsf_bytes x)) l = map (view (gsf_bytes x)) l'.
Proof. exact sync_async_agree. Qed.
Print Assumptions C22_sync_async_agree.

Example C22_example :
  match decode_file (mkCfg None LoadDefer true false true true) (mkFile (gsf_bytes ex_file) 0 true true),
        decode_file (mkCfg None LoadDefer true true false false) (mkFile (gsf_bytes ex_file) 0 false false) with
  | Ok (s, (l, s', o)), Ok (t, (m, t', o')) =>
      s = t /\ s' = t' /\ o = o' /\ map (view (gsf_bytes ex_file)) l = map (view (gsf_bytes ex_file)) m /\ l <> m
  | _, _ => False
  end.
Proof. vm_compute. repeat split; try reflexivity. discriminate. Qed.

(** C52. The exceptions: opening an input raises EOFError or a bad-type or bad-version error only in the cases of C15,
    otherwise GSFDecodeError, UnicodeDecodeError or ValueError; iterating raises no other exception than these three
    and the bad-version error of a later file. *)
Theorem C52_open_exceptions : forall k data strict fwd e, bytes_ok data ->
  decode_file k (mkFile data 0 strict fwd) = Err e ->
  e = EEof \/ e = EBadType \/ e = EBadVersion \/ e = EDecode \/ e = EUnicode \/ e = EValue.
Proof. exact open_errors. Qed.
Print Assumptions C52_open_exceptions.

Theorem C52_iteration_exceptions : forall k data strict fwd s l s' o,
  decode_file k (mkFile data 0 strict fwd) = Ok (s, (l, s', o)) ->
  o = Done \/ exists e, o = Raised e /\ (e = EDecode \/ e = EUnicode \/ e = EValue \/ e = EBadVersion).
Proof. exact decode_file_errors. Qed.
Print Assumptions C52_iteration_exceptions.

(** A second file of version 6, and one whose creation date is the 30th of February. *)
Example C52_example :
  match decode_file ex_cfg (ex_in (gsf_bytes ex_file9 ++ T_SSBBgrsg ++ [6; 0; 0; 0])) with
  | Ok (_, (l, _, o)) => map i_local l = [2] /\ o = Raised EBadVersion
  | Err _ => False
  end /\
  decode_file ex_cfg (ex_in (T_SSBBgrsg ++ [9; 0; 0; 0] ++
    enc_block T_head (ex_uuid 1 ++ enc_datetime (mkDT 2024 2 30 0 0 0)))) = Err EValue.
Proof. vm_compute. repeat split; reflexivity. Qed.
