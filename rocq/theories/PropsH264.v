(** The properties of H.264 streams, C41 to C43. *)
From Verif Require Import Base PatternTime PatternSpec Wrap WrapSpec H264 H264Spec H264StreamSpec H264BitsProofs H264SetsProofs H264RbspProofs
  H264Example H264FramesProofs H264MainProofs H264GrainsProofs.

(** C41. What is taken out of a unit: all bytes after the start code except those that are 3 after two zeros. *)
Theorem C41_payload : forall nalu n, start_code nalu = Ok n -> rbsp nalu = Ok (payload (Z.to_nat n) nalu).
Proof. exact rbsp_payload. Qed.
Print Assumptions C41_payload.

(** A start code is three or four bytes; nothing else is one. *)
Theorem C41_start_code : forall nalu n, start_code nalu = Ok n ->
  exists long body, nalu = start_prefix long ++ body /\ n = zlen (start_prefix long).
Proof. exact start_code_inv. Qed.
Print Assumptions C41_start_code.

(** What an encoder escaped comes back. *)
Theorem C41_escaped : forall long b, rbsp (start_prefix long ++ escape 0 b) = Ok b.
Proof. exact rbsp_unit. Qed.
Print Assumptions C41_escaped.

(** Zero words at the end, which are followed by a 3. *)
Theorem C41_zero_words : forall long q x m, x <> 0 -> (0 < m)%nat ->
  rbsp (start_prefix long ++ escape 0 (q ++ x :: zeros (2 * m)) ++ [3]) = Ok (q ++ x :: zeros (2 * m)).
Proof. exact rbsp_words. Qed.
Print Assumptions C41_zero_words.

(** In what was escaped no start code, and no other sequence that is kept for other uses, stands at any place. *)
Theorem C41_no_start_code : forall p i x, Forall (Z.le 0) p -> x < 3 -> ~ stands_at 0 0 x (escape 0 p) i.
Proof. exact escape_stands. Qed.
Print Assumptions C41_no_start_code.

Example C41_example :
  escape 0 [0; 0; 0; 0; 0; 1; 0; 0; 3; 0; 0; 4] = [0; 0; 3; 0; 0; 3; 0; 1; 0; 0; 3; 3; 0; 0; 4] /\
  rbsp [0; 0; 1; 0; 0; 3; 0; 0; 3; 0; 1; 0; 0; 3; 3; 0; 0; 4] = Ok [0; 0; 0; 0; 0; 1; 0; 0; 3; 0; 0; 4] /\
  rbsp [0; 0; 0; 1; 9; 0; 0; 3; 0; 0; 3] = Ok [9; 0; 0; 0; 0] /\ rbsp [0; 0; 2; 9] = Err EValue.
Proof. vm_compute. repeat split. Qed.

(** C42. Codes: reading gives the value and leaves what follows; what is read is the code of the value. *)
Theorem C42_unsigned : forall v t, 0 <= v -> ue (golomb v ++ t) = Ok (v, t).
Proof. exact ue_golomb. Qed.
Print Assumptions C42_unsigned.
Theorem C42_signed : forall v t, se (signed v ++ t) = Ok (v, t).
Proof. exact se_signed. Qed.
Print Assumptions C42_signed.
Theorem C42_fixed : forall n v t, 0 < n -> 0 <= v < 2 ^ n -> uint n (put (Z.to_nat n) v ++ t) = Ok (v, t).
Proof. exact uint_put. Qed.
Print Assumptions C42_fixed.
Theorem C42_unsigned_only : forall b v t, ue b = Ok (v, t) -> 0 <= v /\ b = golomb v ++ t.
Proof. exact ue_inv. Qed.
Print Assumptions C42_unsigned_only.
Theorem C42_signed_only : forall b v t, se b = Ok (v, t) -> b = signed v ++ t.
Proof. exact se_inv. Qed.
Print Assumptions C42_signed_only.
Theorem C42_fixed_only : forall n b v t, 0 < n -> uint n b = Ok (v, t) -> b = put (Z.to_nat n) v ++ t /\ 0 <= v < 2 ^ n.
Proof. exact uint_inv. Qed.
Print Assumptions C42_fixed_only.

Example C42_codes_example :
  golomb 4 = [false; false; true; false; true] /\ ue [false; false; true; false; true; true] = Ok (4, [true]) /\
  signed (-2) = [false; false; true; false; true] /\ se [false; false; true; false; true] = Ok (-2, []) /\
  ue [false; false; true; false] = Err ERead.
Proof. vm_compute. repeat split. Qed.

(** Parameter sets and slice headers of all forms, as bits and as units. *)
Theorem C42_sequence_set : forall q t, seq_ok q -> parse_sps (write (seq_syntax q) ++ t) = Ok (sps_of q, t).
Proof. exact parse_sps_read. Qed.
Print Assumptions C42_sequence_set.
Theorem C42_picture_set : forall p t, pic_ok p -> readable_groups p -> parse_pps (write (pic_syntax p) ++ t) = Ok (pps_of p, t).
Proof. exact parse_pps_read. Qed.
Print Assumptions C42_picture_set.
Theorem C42_slice : forall ps q p s t, holds ps q p (s_pic s) -> seq_ok q -> slice_ok q p s ->
  parse_slice_header ps (write (slice_syntax q p s) ++ t) = Ok (header_of s, t).
Proof. exact parse_slice_read. Qed.
Print Assumptions C42_slice.
Theorem C42_unit_type : forall long n, below 4 (ref_of n) -> below 32 (type_of n) -> nal_unit_type (start_prefix long ++ nal_body n) = Ok (type_of n).
Proof. exact unit_kind. Qed.
Print Assumptions C42_unit_type.
Theorem C42_sequence_unit : forall long q t, seq_ok q -> on_rbsp (start_prefix long ++ nal_body (SeqU q t)) parse_sps = Ok (sps_of q).
Proof. exact seq_unit. Qed.
Print Assumptions C42_sequence_unit.
Theorem C42_picture_unit : forall long p t, pic_ok p -> readable_groups p -> on_rbsp (start_prefix long ++ nal_body (PicU p t)) parse_pps = Ok (pps_of p).
Proof. exact pic_unit. Qed.
Print Assumptions C42_picture_unit.
Theorem C42_slice_unit : forall ps long q p s t, holds ps q p (s_pic s) -> seq_ok q -> slice_ok q p s ->
  on_rbsp (start_prefix long ++ nal_body (SliceU q p s t)) (parse_slice_header ps) = Ok (header_of s).
Proof. exact slice_unit. Qed.
Print Assumptions C42_slice_unit.
(** The sizes, rate, aspect ratio and key frame flag that are derived from these. *)
Theorem C42_frame_info : forall ps q p s l, holds ps q p (s_pic s) -> seq_ok q ->
  extract_frame_info ps (map header_of (s :: l)) = Ok (Some (info_of q s (s :: l))).
Proof. exact extract_info. Qed.
Print Assumptions C42_frame_info.

(** An explicit map of slice groups is read with the wrong width: as many bits as the number of map units needs, less one,
    instead of as many as the number of groups needs. *)
Theorem C42_slice_groups_refuted : exists p t, pic_ok p /\ parse_pps (write (pic_syntax p) ++ t) <> Ok (pps_of p, t) /\
  is_ok (parse_pps (write (pic_syntax p) ++ t)) = true.
Proof.
  exists grouped, [true; false; false; true; false; false; false; true; true; true; true; true]. split.
  - repeat split; try discriminate; injection H as <- <-; [reflexivity|]. split; [reflexivity|].
    repeat (apply Forall_cons; [split; [discriminate|reflexivity]|]). apply Forall_nil.
  - split; [vm_compute; discriminate|vm_compute; reflexivity].
Qed.
Print Assumptions C42_slice_groups_refuted.

Example C42_example :
  on_rbsp [0; 0; 1; 103; 100; 0; 31; 173; 132; 1; 255; 254; 3; 16; 206; 104; 17; 102; 66; 1; 0; 3] parse_sps = Err ERead /\
  on_rbsp (start_prefix true ++ nal_body (SeqU ex_seq [])) parse_sps = Ok (sps_of ex_seq) /\
  on_rbsp (start_prefix false ++ nal_body (PicU ex_pic [])) parse_pps = Ok (mkPps 0 0 1 1) /\
  (fi_width (info_of ex_seq (ex_slice 5 7 0 0 0) []), fi_height (info_of ex_seq (ex_slice 5 7 0 0 0) []),
   fi_rate (info_of ex_seq (ex_slice 5 7 0 0 0) []), fi_aspect (info_of ex_seq (ex_slice 5 7 0 0 0) [])) =
  (720, 568, Some (25, 1), Some (64, 45)) /\
  on_rbsp (start_prefix true ++ nal_body (SliceU ex_seq ex_pic (ex_slice 5 7 0 3 0) ([true; false], 1%nat))) (parse_slice_header (mkPs [(0, sps_of ex_seq)] [(0, pps_of ex_pic)])) =
    Ok (mkSh 7 1 5 0 0 1 0 3 (-1) 0 0 0 0 0).
Proof. vm_compute. repeat split. Qed.

(** C43. Whatever the bytes and the fragments they come in: the frames joined are the stream, up to an exception or up to a
    rest in which there is no start code. The offsets of a frame are the places of its start codes. *)
Theorem C43_conserved : forall src fuel fs e, fragments_ok src -> 3 * zlen (concat src) + 1 < Z.of_nat fuel ->
  h264_frames src_read src (mkPs [] []) [] None true fuel = (fs, e) ->
  e <> Some EFuel /\ Forall (fun f : h264_frame => rising (snd (fst f)) /\ snd (fst f) <> [] /\
    forall k, In k (snd (fst f)) <-> exists j, k = Z.of_nat j /\ stands_at 0 0 1 (fst (fst f)) j) fs /\
  exists rest, concat (map (fun f : h264_frame => fst (fst f)) fs) ++ rest = concat src /\
    (e = None -> forall j, ~ stands_at 0 0 1 rest j).
Proof. exact conserve. Qed.
Print Assumptions C43_conserved.

(** A stream of access units, in whatever fragments, is cut into these access units. *)
Theorem C43_access_units : forall l src fuel, stream_ok nothing None l -> fragments_ok src -> concat src = flat_map a_bytes l ->
  3 * zlen (concat src) + 1 < Z.of_nat fuel -> h264_frames src_read src (mkPs [] []) [] None true fuel = (frames_of l, None).
Proof. exact stream_frames. Qed.
Print Assumptions C43_access_units.

(** The grains: one for each frame, with its data, its offsets and its key frame flag, one period apart. *)
Theorem C43_grains : forall St k first (read : reader St) t origin st fuel f fs e t', clock_ok k ->
  h264_frames read st (mkPs [] []) [] None true fuel = (f :: fs, e) -> described t (snd f) t' -> slow (ht_rate t') ->
  exists gs, h264_grains k first read t origin st fuel = (gs, e) /\
    map (fun g => (wg_data g, hm_offsets (wg_template g), hm_key (wg_template g))) gs =
      map (fun f : h264_frame => (fst (fst f), snd (fst f), option_map fi_key (snd f))) (f :: fs) /\
    Forall (fun g => hm_template (wg_template g) = t') gs /\
    origins_from k (ht_rate t') (first (normalise k origin (ht_rate t')) (ht_rate t')) gs.
Proof. exact grains_described. Qed.
Print Assumptions C43_grains.

(** A pipe: the generator never ends without an exception. *)
Theorem C43_pipe : forall fuel src pos ps buffer prev start, fragments_ok src ->
  snd (h264_frames pipe_read (mkPipe src pos) ps buffer prev start fuel) <> None.
Proof. exact frames_pipe. Qed.
Print Assumptions C43_pipe.

Example C43_stream_ok : stream_ok nothing None [ex_au1; ex_au2; ex_au3].
Proof. exact ex_stream_ok. Qed.
Example C43_example :
  let run src := h264_frames src_read src (mkPs [] []) [] None true (Z.to_nat 600) in
  run [ex_stream] = run (singly ex_stream) /\ run [ex_stream] = (frames_of [ex_au1; ex_au2; ex_au3], None) /\
  map (fun f : h264_frame => (zlen (fst (fst f)), snd (fst f), option_map fi_key (snd f))) (fst (run (singly ex_stream))) =
    [(89, [3; 9; 47; 56; 64; 80], Some true); (20, [1; 12], Some false); (15, [0; 5], Some true)] /\
  run [[0; 0; 0; 1; 9; 16]] = ([([0; 0; 0; 1; 9; 16], [1], None)], None) /\ run [[9; 0; 0]] = ([], None).
Proof. vm_compute. repeat split. Qed.

(** A stream of three pictures that loses all of them, and ends in an exception, when it comes through a pipe. *)
Theorem C43_pipe_refuted : exists l src fuel, stream_ok nothing None l /\ fragments_ok src /\ concat src = flat_map a_bytes l /\
  h264_frames pipe_read (mkPipe src 0) (mkPs [] []) [] None true fuel = ([], Some EEof) /\ length l = 3%nat.
Proof.
  exists [ex_au1; ex_au2; ex_au3], [ex_stream], (Z.to_nat 600). split; [exact ex_stream_ok|]. split.
  - repeat constructor. discriminate.
  - split; [vm_compute; reflexivity|]. split; vm_compute; reflexivity.
Qed.
Print Assumptions C43_pipe_refuted.

(** Slices of one picture whose nal_ref_idc differ without being 0 are taken for two pictures. *)
Theorem C43_ref_idc_refuted : exists b q p s s' t t', new_picture q s' s = false /\
  let first := unit_bytes (1%nat, SliceU q p s t) in let second := unit_bytes (0%nat, SliceU q p s' t') in
  exists f g h, h264_frames src_read [b ++ first ++ second] (mkPs [] []) [] None true (Z.to_nat 600) = ([f; g; h], None) /\
    fst (fst f) = b /\ fst (fst g) = first /\ fst (fst h) = second.
Proof.
  exists (a_bytes ex_au1), ex_seq, ex_pic, (ex_slice 1 5 1 2 0), ex_ref, ([], O), ([], O). split; [reflexivity|].
  vm_compute. do 3 eexists. repeat split.
Qed.
Print Assumptions C43_ref_idc_refuted.

(** A unit of type 14 after the slices belongs to the next access unit (clause 7.4.1.2.3), but is put at the end of this one. *)
Theorem C43_prefix_refuted : exists a prefix slice, au_ok (fold_left learn (a_before a) nothing) a /\ type_of (snd prefix) = 14 /\
  exists f g, h264_frames src_read [a_bytes a ++ unit_bytes prefix ++ unit_bytes slice] (mkPs [] []) [] None true (Z.to_nat 600) = ([f; g], None) /\
    fst (fst f) = a_bytes a ++ unit_bytes prefix /\ fst (fst g) = unit_bytes slice.
Proof.
  exists ex_au1, (0%nat, OtherU 1 14 [true]), (0%nat, SliceU ex_seq ex_pic (ex_slice 1 5 1 2 0) ([], O)). split; [exact (proj1 ex_stream_ok)|].
  split; [reflexivity|]. vm_compute. do 2 eexists. repeat split.
Qed.
Print Assumptions C43_prefix_refuted.

(** The last picture of a stream is called a key frame though one of its slices is not intra coded, if it is in data partitions; the same
    picture is not if another one follows. *)
Theorem C43_partitions_refuted : exists a b, stream_ok nothing None [a] /\
  let run src := h264_frames src_read [src] (mkPs [] []) [] None true (Z.to_nat 600) in
  existsb intra (flat_map primary (a_units a)) = true /\ forallb intra (flat_map primary (a_units a)) = false /\
  map (fun f : h264_frame => (fst (fst f), option_map fi_key (snd f))) (fst (run (a_bytes a))) = [(a_bytes a, Some true)] /\
  map (fun f : h264_frame => (fst (fst f), option_map fi_key (snd f))) (fst (run (a_bytes a ++ b))) = [(a_bytes a, Some false); (b, None)].
Proof.
  exists ex_parts, [0; 0; 0; 1; 9; 16]. split; [exact ex_parts_ok|]. vm_compute. repeat split.
Qed.
Print Assumptions C43_partitions_refuted.

(** When the bytes are no valid stream the frames may depend on the fragments. *)
Theorem C43_fragments_refuted : exists src src' fuel, fragments_ok src /\ fragments_ok src' /\ concat src = concat src' /\
  3 * zlen (concat src) + 1 < Z.of_nat fuel /\
  h264_frames src_read src (mkPs [] []) [] None true fuel <> h264_frames src_read src' (mkPs [] []) [] None true fuel.
Proof.
  exists [ex_short ++ ex_next], [ex_short ++ [0]; [0; 1; 9; 16]], (Z.to_nat 600).
  split; [repeat constructor; discriminate|]. split; [repeat constructor; discriminate|]. split; [vm_compute; reflexivity|].
  split; [vm_compute; reflexivity|]. vm_compute. discriminate.
Qed.
Print Assumptions C43_fragments_refuted.
