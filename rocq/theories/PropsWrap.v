(** The properties of pipes and of the wrappers for raw frames and for AAC, C39, C40 and C51. *)
From Verif Require Import Base PatternTime PatternSpec Wrap WrapSpec WrapProofs AdtsProofs.

(** C39. A buffered file: nothing is lost, frames are complete except perhaps the last, and times advance by one period. *)
Theorem C39_file : forall A k r size (t : A), 0 < size -> forall fuel c d, (Z.to_nat (zlen d) < fuel)%nat ->
  exists gs, grains k r src_read size t c (buffered d) fuel = (gs, None) /\
    concat (map wg_data gs) = d /\ Forall (fun g => wg_template g = t /\ 0 < zlen (wg_data g)) gs /\ origins_from k r c gs /\
    forall i g, nth_error gs i = Some g -> zlen (wg_data g) = Z.min size (zlen d - Z.of_nat i * size).
Proof. exact @grains_file. Qed.
Print Assumptions C39_file.

(** A pipe, in any fragments: whole frames only. *)
Theorem C39_pipe : forall A k r size (t : A), 0 < size -> forall fuel c s pos, fragments_ok s -> (Z.to_nat (zlen (concat s)) < fuel)%nat ->
  exists gs, grains k r pipe_read size t c (mkPipe s pos) fuel = (gs, None) /\
    concat (map wg_data gs) = zfirst (zlen (concat s) / size * size) (concat s) /\
    Forall (fun g => wg_template g = t /\ zlen (wg_data g) = size) gs /\ origins_from k r c gs.
Proof. exact @grains_pipe. Qed.
Print Assumptions C39_pipe.

(** A raw file with short reads: nothing is lost either, but the grains are what the reads gave. *)
Theorem C39_short_reads : forall A k r size (t : A), 0 < size -> forall fuel c s, fragments_ok s -> (Z.to_nat (zlen (concat s)) < fuel)%nat ->
  exists gs, grains k r src_read size t c s fuel = (gs, None) /\ concat (map wg_data gs) = concat s /\
    Forall (fun g => wg_template g = t /\ 0 < zlen (wg_data g) <= size) gs /\ origins_from k r c gs.
Proof. exact @grains_source. Qed.
Print Assumptions C39_short_reads.

Theorem C39_short_reads_refuted : exists s gs, fragments_ok s /\
  grains example_clock (25, 1) src_read 4 tt 0 s 9 = (gs, None) /\ zlen (concat s) mod 4 = 0 /\
  Exists (fun g => zlen (wg_data g) <> 4) gs.
Proof.
  exists [[1; 2; 3]; [4; 5; 6; 7; 8]]. eexists. split; [repeat constructor; discriminate|]. split; [vm_compute; reflexivity|].
  split; [reflexivity|]. apply Exists_cons_hd. vm_compute. discriminate.
Qed.
Print Assumptions C39_short_reads_refuted.

(** The last frame of a file can be short: the wording with frames that are all complete holds for pipes only. *)
Theorem C39_last_frame_refuted : exists d gs,
  grains example_clock (25, 1) src_read 4 tt 0 (buffered d) 9 = (gs, None) /\ Exists (fun g => zlen (wg_data g) <> 4) gs.
Proof.
  exists [1; 2; 3; 4; 5]. eexists. split; [vm_compute; reflexivity|]. apply Exists_cons_tl, Exists_cons_hd. vm_compute. discriminate.
Qed.
Print Assumptions C39_last_frame_refuted.

(** A template whose size is zero makes no grain of any input. *)
Theorem C39_no_size : forall A k r (t : A) fuel c s pos,
  grains k r src_read 0 t c s (S fuel) = ([], None) /\ grains k r pipe_read 0 t c (mkPipe s pos) (S fuel) = ([], None).
Proof. exact @grains_none. Qed.
Print Assumptions C39_no_size.

Example C39_example :
  grains example_clock (50, 1) src_read 3 tt 7 (buffered [1; 2; 3; 4; 5; 6; 7]) 9 =
    ([mkWg tt 140000000 [1; 2; 3]; mkWg tt 160000000 [4; 5; 6]; mkWg tt 180000000 [7]], None) /\
  grains example_clock (50, 1) pipe_read 3 tt 7 (mkPipe [[1]; [2; 3; 4; 5]; [6; 7]] 0) 9 =
    ([mkWg tt 140000000 [1; 2; 3]; mkWg tt 160000000 [4; 5; 6]], None).
Proof. vm_compute. split; reflexivity. Qed.

(** C40. A header made of field values gives back the values. *)
Theorem C40_header : forall f rest, fields_ok f ->
  parse_header (adts_header f ++ rest) =
  match adts_frequency (af_frequency f) with Some hz => Ok (fields_info f hz) | None => Err EValue end.
Proof. exact header_parses. Qed.
Print Assumptions C40_header.

(** What is accepted is such a header. *)
Theorem C40_only_headers : forall d i, bytes_ok d -> parse_header d = Ok i ->
  exists f rest, fields_ok f /\ d = adts_header f ++ rest /\ adts_frequency (af_frequency f) = Some (ai_rate i) /\ i = fields_info f (ai_rate i).
Proof. exact header_complete. Qed.
Print Assumptions C40_only_headers.

Theorem C40_errors : forall d, is_ok (parse_header d) = true \/ parse_header d = Err EValue.
Proof. exact header_errors. Qed.
Print Assumptions C40_errors.

(** A file of frames is split into these frames. *)
Theorem C40_file : forall fs fuel, Forall frame_ok fs -> (length fs < fuel)%nat ->
  adts_frames src_read (buffered (flat_map frame_bytes fs)) fuel = (map (fun f => (frame_bytes f, frame_info f)) fs, None).
Proof. exact frames_file. Qed.
Print Assumptions C40_file.

(** A file that ends in the middle of a frame. *)
Theorem C40_cut : forall fs f n fuel, Forall frame_ok fs -> frame_ok f -> 0 < n < zlen (frame_bytes f) -> (S (length fs) < fuel)%nat ->
  adts_frames src_read (buffered (flat_map frame_bytes fs ++ zfirst n (frame_bytes f))) fuel =
  (map (fun f => (frame_bytes f, frame_info f)) fs ++ (if 7 <=? n then [(zfirst n (frame_bytes f), frame_info f)] else []),
   if 7 <=? n then None else Some EValue).
Proof. exact frames_cut. Qed.
Print Assumptions C40_cut.

(** A pipe gives the same frames in any fragments, and then raises EOFError where a file ends quietly. *)
Theorem C40_pipe : forall fs, Forall frame_ok fs -> forall s pos fuel, fragments_ok s -> concat s = flat_map frame_bytes fs -> (length fs < fuel)%nat ->
  adts_frames pipe_read (mkPipe s pos) fuel = (map (fun f => (frame_bytes f, frame_info f)) fs, Some EEof).
Proof. exact frames_pipe. Qed.
Print Assumptions C40_pipe.

(** One grain for each frame, with times on the grid of samples. *)
Theorem C40_grains : forall k first t origin fuel f fs, clock_ok k -> Forall frame_ok (f :: fs) ->
  (match at_samples t with Some n => 0 < n | None => True end) -> (length (f :: fs) < fuel)%nat ->
  exists gs t' c, adts_grains k first src_read t origin (buffered (flat_map frame_bytes (f :: fs))) fuel = (gs, None) /\
    adts_meta (at_samples t) f t' /\ map wg_data gs = map frame_bytes (f :: fs) /\ Forall (fun g => wg_template g = t') gs /\
    c = first (normalise k origin (at_sample_rate t', 1)) (at_rate_ t') /\
    map wg_origin gs =
      map (fun n => grid k (at_sample_rate t', 1) (n * match at_samples t with Some n => n | None => 1024 end)) (between c (c + zlen (f :: fs))).
Proof. exact grains_file_adts. Qed.
Print Assumptions C40_grains.

(** A frame length of 6 (less than the header) makes everything that follows one frame. *)
Theorem C40_length_6_refuted : exists f frame body, fields_ok f /\ adts_frequency (af_frequency f) = Some 48000 /\ af_length f = 6 /\ frame_ok frame /\
  adts_frames src_read (buffered (adts_header f ++ frame_bytes frame)) 9 = ([(body, fields_info f 48000)], None) /\
  body = adts_header f ++ frame_bytes frame.
Proof.
  exists (mkAf 0 0 1 1 3 0 2 0 0 0 0 6 2047 0), (mkFrame (mkAf 0 0 1 1 3 0 2 0 0 0 0 9 2047 0) 48000 [33; 44]). eexists.
  split; [repeat (apply Forall_cons; [split; reflexivity || discriminate|]); apply Forall_nil|].
  split; [reflexivity|]. split; [reflexivity|].
  split; [split; [repeat (apply Forall_cons; [split; reflexivity || discriminate|]); apply Forall_nil|split; reflexivity]|].
  split; [vm_compute; reflexivity|]. vm_compute. reflexivity.
Qed.
Print Assumptions C40_length_6_refuted.

Definition ex_fields : adts_fields := mkAf 0 0 1 1 3 0 2 0 0 0 0 9 2047 0.
Example C40_example :
  adts_header ex_fields = [0xff; 0xf1; 0x4c; 0x80; 0x01; 0x3f; 0xfc] /\ fields_ok ex_fields /\
  (match adts_grains example_clock (fun ns r => to_count example_clock ns (fst r) (snd r)) src_read (mkAt 0 0 None (1, 1) (1, 1)) 1000000000
     (buffered (flat_map frame_bytes [mkFrame ex_fields 48000 [1; 2]; mkFrame ex_fields 48000 [3; 4]])) 5 with
   | (gs, e) => (map wg_origin gs, map (fun g => (at_channels (wg_template g), at_rate_ (wg_template g))) gs, map (fun g => zskip 7 (wg_data g)) gs, e)
   end) = ([1002666666; 1024000000], [(2, (375, 8)); (2, (375, 8))], [[1; 2]; [3; 4]], None).
Proof.
  split; [vm_compute; reflexivity|]. split; [repeat (apply Forall_cons; [split; reflexivity || discriminate|]); apply Forall_nil|].
  vm_compute. reflexivity.
Qed.

(** C51. A pipe gives the results of a file until it refuses a call: a read of more than there is, or a seek that is not
    forward. Any fragments for reads; for seeks the stream must be buffered. *)
Theorem C51_as_file : forall ops s, fragments_ok s -> Forall op_ok ops ->
  (Forall (fun o => ~ is_seek o) ops \/ (length s <= 1)%nat) ->
  pipe_run ops (mkPipe s 0) = like_file ops (concat s) 0.
Proof. exact pipe_as_file. Qed.
Print Assumptions C51_as_file.

(** After an EOFError no byte comes any more. *)
Theorem C51_after_eof : forall n src pos p, -1 <= n -> fragments_ok src -> pipe_read n (mkPipe src pos) = (p, Err EEof) ->
  p_pos p = pos /\ forall ops, Forall (fun o => match o with OutBytes b => b = [] | _ => True end) (pipe_all ops p).
Proof. exact after_eof. Qed.
Print Assumptions C51_after_eof.

(** So bytes that were there can be lost, and the position is wrong. *)
Theorem C51_lost_refuted : exists s, fragments_ok s /\ concat s = [1; 2; 3] /\
  pipe_all [PRead 5; PTell; PRead 2] (mkPipe s 0) = [OutErr EEof; OutPos 0; OutErr EEof].
Proof. exists [[1; 2; 3]]. split; [repeat constructor; discriminate|]. split; reflexivity. Qed.
Print Assumptions C51_lost_refuted.

(** A seek reads once: in a stream with short reads it does not get as far as it says. *)
Theorem C51_short_seek_refuted : exists s, fragments_ok s /\ concat s = [1; 2; 3; 4] /\
  pipe_run [PSeek 3 0; PRead 1] (mkPipe s 0) = [OutPos 3; OutBytes [2]] /\
  like_file [PSeek 3 0; PRead 1] (concat s) 0 = [OutPos 3; OutBytes [4]].
Proof. exists [[1]; [2; 3; 4]]. split; [repeat constructor; discriminate|]. repeat split. Qed.
Print Assumptions C51_short_seek_refuted.

Example C51_example :
  pipe_run [PRead 2; PTell; PRead 0; PRead 3; PRead (-1); PRead 1] (mkPipe [[1]; [2; 3]; [4]; [5; 6; 7]] 0) =
    [OutBytes [1; 2]; OutPos 2; OutBytes []; OutBytes [3; 4; 5]; OutBytes [6; 7]; OutErr EEof] /\
  pipe_run [PSeek 2 0; PRead 1; PSeek 1 1; PRead 1; PSeek 1 0] (mkPipe [[1; 2; 3; 4; 5]] 0) =
    [OutPos 2; OutBytes [3]; OutPos 4; OutBytes [5]; OutErr EUnsupported].
Proof. vm_compute. split; reflexivity. Qed.
