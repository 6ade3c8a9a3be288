(** Properties C27 to C30: buffers of new grains and format numbers. *)
From Verif Require Import Base CogEnums VideoLayout LayoutSpec LayoutProofs.

(** C27. The components of a new video grain tile its buffer, for every format number. *)
Theorem C27_components_tile : forall f w h, 0 <= w -> 0 <= h ->
  exists data comps, new_video f w h = Ok (data, comps) /\ Forall (eq 0) data /\
    tiles 0 comps (zlen data) /\ video_expected_length comps = zlen data.
Proof. exact video_tiles. Qed.
Print Assumptions C27_components_tile.

(** For the uncompressed formats the planes are those of the picture. *)
Theorem C27_planes : forall f p w h, In (f, p) pictures -> 0 <= w -> 0 <= h ->
  map geometry (components_for_format f w h) = planes p w h.
Proof. exact video_planes. Qed.
Print Assumptions C27_planes.

Example C27_example :
  new_video U8_420 4 3 = Ok (zeros 18, [mkVc 4 0 4 3 12; mkVc 2 12 2 1 3; mkVc 2 15 2 1 3]) /\
  size_for_format v210 50 2 = 512 /\ size_for_format S16_422_10BIT 6 2 = 48.
Proof. vm_compute. repeat split. Qed.

(** AYUV has four values per pixel, but the buffer has two bytes per pixel (VideoGrain.py 316-317). *)
Theorem C27_ayuv_refuted : ~ (forall w h, 0 <= w -> 0 <= h -> size_for_format AYUV w h = w * h * 4).
Proof. intros H. specialize (H 1 1 ltac:(discriminate) ltac:(discriminate)). vm_compute in H. discriminate. Qed.
Print Assumptions C27_ayuv_refuted.

(** C28. The lines of a component fit in it, and fill it exactly when the pixels left over at the edges would not fill
    a chroma value. *)
Theorem C28_strides : forall f p w h, In (f, p) pictures -> 0 <= w -> 0 <= h ->
  Forall fits (components_for_format f w h) /\ (Forall full (components_for_format f w h) <-> edge_small p w h).
Proof. exact video_strides. Qed.
Print Assumptions C28_strides.

Theorem C28_compatible : forall f p w h, In (f, p) pictures -> 0 <= w -> 0 <= h -> compatible p w h -> edge_small p w h.
Proof. exact compatible_edge. Qed.
Print Assumptions C28_compatible.

Theorem C28_lines_inside : forall f p w h c k, In (f, p) pictures -> 0 <= w -> 0 <= h ->
  In c (components_for_format f w h) -> 0 <= k < vc_height c ->
  vc_offset c <= vc_offset c + k * vc_stride c /\ vc_offset c + (k + 1) * vc_stride c <= vc_offset c + vc_length c.
Proof. exact video_lines. Qed.
Print Assumptions C28_lines_inside.

Example C28_example :
  map (fun c => (vc_stride c * vc_height c, vc_length c)) (components_for_format U8_420 5 5) = [(25, 25); (4, 6); (4, 6)] /\
  map (fun c => (vc_stride c * vc_height c, vc_length c)) (components_for_format U8_420 4 4) = [(16, 16); (4, 4); (4, 4)].
Proof. vm_compute. split; reflexivity. Qed.

(** The components can be full although the size is not compatible with the sub-sampling. *)
Theorem C28_only_compatible_refuted : ~ (forall f p w h, In (f, p) pictures -> 0 <= w -> 0 <= h ->
  Forall full (components_for_format f w h) -> compatible p w h).
Proof.
  intros H. specialize (H U8_420 (Planar 2 2 1) 2 1).
  assert (In (U8_420, Planar 2 2 1) pictures) as Hin by (vm_compute; tauto).
  assert (Forall full (components_for_format U8_420 2 1)) as Hf by (vm_compute; repeat constructor).
  specialize (H Hin ltac:(discriminate) ltac:(discriminate) Hf). vm_compute in H. destruct H as [_ H]. discriminate.
Qed.
Print Assumptions C28_only_compatible_refuted.

(** C29. Audio buffers. *)
Theorem C29_size : forall f a b channels samples, In (f, (a, b)) audio_table ->
  size_for_audio_format f channels samples = stored_channels a channels * samples * b /\ AUDIO_SAMPLEBYTES f = b.
Proof. exact audio_size. Qed.
Print Assumptions C29_size.

Theorem C29_linear : forall f channels s1 s2,
  size_for_audio_format f channels (s1 + s2) = size_for_audio_format f channels s1 + size_for_audio_format f channels s2.
Proof. exact audio_linear. Qed.
Print Assumptions C29_linear.

Theorem C29_monotone : forall f c1 c2 s1 s2, 0 <= c1 <= c2 -> 0 <= s1 <= s2 ->
  0 <= size_for_audio_format f c1 s1 <= size_for_audio_format f c2 s2.
Proof. exact audio_monotone. Qed.
Print Assumptions C29_monotone.

Theorem C29_compressed : forall f channels samples, In f audio_formats -> AUDIO_IS_COMPRESSED f = true ->
  size_for_audio_format f channels samples = 0.
Proof. exact audio_compressed. Qed.
Print Assumptions C29_compressed.

(** Every audio format is compressed, in the table, or S64_INVALID. *)
Theorem C29_table_complete : forall f, In f audio_formats ->
  AUDIO_IS_COMPRESSED f = true \/ f = 0xc \/ In f (map fst audio_table).
Proof. exact audio_table_complete. Qed.
Print Assumptions C29_table_complete.

Example C29_example : size_for_audio_format 0x5 3 10 = 120 /\ size_for_audio_format 0x6 3 10 = 90 /\ size_for_audio_format 0x4 3 10 = 120.
Proof. vm_compute. repeat split. Qed.

(** C30. Planar format numbers. *)
Theorem C30_planar_numbers : forall c d, In d planar_depths ->
  exists f, COG_PLANAR_FORMAT c d = Ok f /\ In f frame_formats /\
    (H_SHIFT f, V_SHIFT f) = subsampling c /\ ACTIVE_BITS f = d /\
    IS_PLANAR_RGB f = (match c with CRGB => true | _ => false end) /\ IS_PLANAR f = true /\ IS_PACKED f = false /\
    IS_COMPRESSED f = false /\ IS_ALPHA f = false /\
    In (BYTES_PER_VALUE f) [1; 2; 4] /\ d <= 8 * BYTES_PER_VALUE f /\
    (forall n, In n [1; 2; 4] -> d <= 8 * n -> BYTES_PER_VALUE f <= n).
Proof. exact planar_number_ok. Qed.
Print Assumptions C30_planar_numbers.

Theorem C30_other_depths : forall c d, ~ In d planar_depths -> COG_PLANAR_FORMAT c d = Err EValue.
Proof. exact planar_number_none. Qed.
Print Assumptions C30_other_depths.

Theorem C30_distinct : forall c d c' d' f, COG_PLANAR_FORMAT c d = Ok f -> COG_PLANAR_FORMAT c' d' = Ok f -> c = c' /\ d = d'.
Proof. exact planar_number_inj. Qed.
Print Assumptions C30_distinct.

Example C30_example : COG_PLANAR_FORMAT YUV_420 10 = Ok S16_420_10BIT /\ COG_PLANAR_FORMAT CRGB 8 = Ok U8_444_RGB /\
  COG_PLANAR_FORMAT YUV_422 9 = Err EValue.
Proof. vm_compute. repeat split. Qed.
