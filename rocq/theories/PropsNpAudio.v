(** The arrays of numpy audio grains. *)
From Verif Require Import Base GsfPrim CogEnums VideoLayout LayoutSpec PatternTime Tone PatternSpec NpAudio NpAudioSpec NpAudioMain NpAudioExample.

(** Where an array item is a sample, the arrays are the samples of the channels, and assignments to them are assignments to those
    samples of the payload and to nothing else. *)
Theorem C57_plain : forall w fmt a size samples channels d,
  In (fmt, (a, size)) plain_table -> 0 <= samples -> 0 <= channels -> zlen d = size_for_audio_format fmt channels samples ->
  exists g, na_new w fmt samples channels d = Ok g /\ na_data g = d /\ na_samples g = samples /\ na_channels g = channels /\
    (forall ch i, na_get g ch i = if in_grain g ch i then Some (sample_bytes size d (position a channels samples ch i)) else None) /\
    (forall ch i, in_grain g ch i = true -> zlen (sample_bytes size d (position a channels samples ch i)) = size) /\
    (w = false -> forall ch i b, na_put g ch i b = None) /\
    forall ws, w = true -> Forall (fun x => in_grain g (fst (fst x)) (snd (fst x)) = true /\ zlen (snd x) = size) ws ->
    exists g', na_puts g ws = Some g' /\ zlen (na_data g') = zlen d /\
      (forall ch i, in_grain g ch i = true -> na_get g' ch i = Some (sample_bytes size (na_data g') (position a channels samples ch i)) /\
        sample_bytes size (na_data g') (position a channels samples ch i) = match assigned (rev ws) ch i with Some b => b | None => sample_bytes size d (position a channels samples ch i) end) /\
      (forall q, 0 <= q -> (forall ch i b, In (ch, i, b) ws -> q <> position a channels samples ch i) -> sample_bytes size (na_data g') q = sample_bytes size d q).
Proof. exact plain_arrays. Qed.
Print Assumptions C57_plain.
Example C57_plain_example :
  na_show (na_new true 0x2 3 2 na_pcm) = Some (na_pcm, [[Some [1; 0]; Some [2; 0]; Some [3; 0]]; [Some [255; 255]; Some [254; 255]; Some [253; 255]]]) /\
  (match na_new true 0x2 3 2 na_pcm with Ok g => option_map na_data (na_puts g [(1, 0, [7; 7]); (0, 2, [8; 8]); (1, 0, [9; 9])]) | Err _ => None end) =
  Some [1; 0; 9; 9; 2; 0; 254; 255; 8; 8; 253; 255].
Proof. vm_compute. split; reflexivity. Qed.

(** Samples of 24 bits in three bytes are the upper part of 32 bits; the arrays are a copy, so that assignments do not change the payload. *)
Theorem C57_packed : forall w fmt a samples channels d,
  In (fmt, (a, 3)) packed_table -> 0 <= samples -> 0 <= channels -> zlen d = size_for_audio_format fmt channels samples -> bytes_ok d ->
  exists g, na_new w fmt samples channels d = Ok g /\ na_data g = d /\ na_samples g = samples /\ na_channels g = channels /\
    (forall ch i, na_get g ch i = if in_grain g ch i then Some (0 :: sample_bytes 3 d (position a channels samples ch i)) else None) /\
    (forall ch i, in_grain g ch i = true -> signed 4 (0 :: sample_bytes 3 d (position a channels samples ch i)) = 256 * signed 3 (sample_bytes 3 d (position a channels samples ch i))) /\
    forall ws, Forall (fun x => in_grain g (fst (fst x)) (snd (fst x)) = true /\ zlen (snd x) = 4) ws ->
    exists g', na_puts g ws = Some g' /\ na_data g' = d /\
      (forall ch i, in_grain g ch i = true -> na_get g' ch i = match assigned (rev ws) ch i with Some b => Some b | None => na_get g ch i end).
Proof. exact packed_arrays. Qed.
Print Assumptions C57_packed.
Example C57_packed_example :
  na_show (na_new true 0x6 2 2 na_packed) = Some (na_packed, [[Some [0; 1; 2; 3]; Some [0; 7; 8; 9]]; [Some [0; 4; 5; 134]; Some [0; 10; 11; 140]]]).
Proof. vm_compute. reflexivity. Qed.

(** Samples of 24 bits in the lower part of four bytes are moved to the upper part, in the payload itself. That fails for bytes. *)
Theorem C57_low : forall samples channels d,
  0 <= samples -> 0 <= channels -> zlen d = size_for_audio_format 0x4 channels samples -> bytes_ok d ->
  na_new false 0x4 samples channels d = Err EValue /\
  exists g, na_new true 0x4 samples channels d = Ok g /\ zlen (na_data g) = zlen d /\ na_samples g = samples /\ na_channels g = channels /\
    (forall ch i, na_get g ch i = if in_grain g ch i then Some (sample_bytes 4 (na_data g) (position Planes channels samples ch i)) else None) /\
    (forall ch i, in_grain g ch i = true -> sample_bytes 4 (na_data g) (position Planes channels samples ch i) = 0 :: zfirst 3 (sample_bytes 4 d (position Planes channels samples ch i)) /\
      signed 4 (sample_bytes 4 (na_data g) (position Planes channels samples ch i)) = 256 * signed 3 (zfirst 3 (sample_bytes 4 d (position Planes channels samples ch i)))).
Proof. exact low_arrays. Qed.
Print Assumptions C57_low.
Example C57_low_example :
  na_show (na_new true 0x4 2 1 na_low) = Some ([0; 1; 2; 3; 0; 254; 255; 255], [[Some [0; 1; 2; 3]; Some [0; 254; 255; 255]]]) /\ na_new false 0x4 2 1 na_low = Err EValue.
Proof. vm_compute. split; reflexivity. Qed.

(** So a grain of that format is not a view of its payload, and copying it changes the samples of the original as well. *)
Theorem C57_low_refuted : exists g g1 g2, na_new true 0x4 2 1 na_low = Ok g /\ na_data g <> na_low /\
  na_copied g = Ok (g1, g2) /\ na_get g1 0 0 <> na_get g 0 0 /\ na_get g2 0 0 <> na_get g 0 0 /\
  exists g3, na_deepcopied g = Ok g3 /\ na_get g3 0 0 <> na_get g 0 0.
Proof. do 3 eexists. split; [vm_compute; reflexivity|]. split; [discriminate|]. split; [vm_compute; reflexivity|]. split; [discriminate|]. split; [discriminate|]. eexists. split; [vm_compute; reflexivity|discriminate]. Qed.
Print Assumptions C57_low_refuted.

(** Different samples are at different places, and every place is that of a sample when pairs are complete. *)
Theorem C57_apart : forall a channels samples,
  0 <= samples -> 0 <= channels ->
  (forall ch i ch' i', 0 <= ch < channels -> 0 <= i < samples -> 0 <= ch' < channels -> 0 <= i' < samples ->
    position a channels samples ch i = position a channels samples ch' i' -> ch = ch' /\ i = i') /\
  ((a = Pairs -> channels mod 2 = 0) -> forall p, 0 <= p < room a channels samples -> exists ch i, 0 <= ch < channels /\ 0 <= i < samples /\ position a channels samples ch i = p).
Proof. exact channels_apart. Qed.
Print Assumptions C57_apart.
Example C57_apart_example : map (fun c => map (position Pairs 4 2 c) [0; 1]) [0; 1; 2; 3] = [[0; 2]; [1; 3]; [4; 6]; [5; 7]].
Proof. vm_compute. reflexivity. Qed.

(** Copies of a grain whose payload is not shifted have its samples. *)
Theorem C57_copies : forall w fmt a size samples channels d g,
  In (fmt, (a, size)) (plain_table ++ packed_table) -> na_new w fmt samples channels d = Ok g ->
  na_copied g = Ok (g, g) /\ exists g', na_deepcopied g = Ok g' /\ na_data g' = na_data g /\ can_write g' /\ forall ch i, na_get g' ch i = na_get g ch i.
Proof. exact plain_copies. Qed.
Print Assumptions C57_copies.
Example C57_copies_example : exists g, na_new false 0x2 3 2 na_pcm = Ok g /\ na_put g 0 0 [5; 5] = None /\ na_show (na_deepcopied g) = na_show (Ok g).
Proof. eexists. split; [vm_compute; reflexivity|]. split; vm_compute; reflexivity. Qed.

(** The formats that are refused, and the payloads. *)
Theorem C57_refused : forall w fmt samples channels d,
  In fmt audio_formats ->
  (na_new w fmt samples channels d = Err EUnsupported <-> In fmt [0xfffffffe; 0xffffffff]) /\
  (~ In fmt [0xfffffffe; 0xffffffff] -> forall a size, In (fmt, (a, size)) (plain_table ++ packed_table) -> (na_new w fmt samples channels d = Err EValue <-> zlen d mod size <> 0)).
Proof. exact formats_refused. Qed.
Print Assumptions C57_refused.
Example C57_refused_example : na_new true 0xffffffff 0 0 [] = Err EUnsupported /\ na_new true 0x6 1 1 [1; 2; 3; 4] = Err EValue.
Proof. vm_compute. split; reflexivity. Qed.

(** The arrays of the grains of a tone are the waveform. *)
Theorem C57_tone : forall t a size d k key w,
  In (t_format t, (a, size, d)) tone_table -> tone_ok t a d ->
  let c := count_at k key (t_sample_rate t, 1) in c mod t_samples t = 0 ->
  exists p data g, period t p /\ snd (tone_get k t [] key) = Ok (Some (mkTg (grid k (t_sample_rate t, 1) c) (tone_rate t) data)) /\
    na_new w (t_format t) (t_samples t) (t_channels t) data = Ok g /\ na_data g = data /\
    forall ch i, 0 <= ch < t_channels t -> 0 <= i < t_samples t ->
      exists b, na_get g ch i = Some b /\ zlen b = item_bytes size d /\ little_endian b = (stretched d * t_wave t d ((c + i) mod p)) mod 2 ^ (8 * item_bytes size d).
Proof. exact tone_arrays. Qed.
Print Assumptions C57_tone.
Example C57_tone_example :
  match snd (tone_get example_clock (mkTone 3 2 0x5 48000 1000 (fun _ n => n * 100 - 250)) [] (TvCount 2 (16000, 1))) with
  | Ok (Some g) => option_map snd (na_show (na_new false 0x5 3 2 (tg_data g)))
  | _ => None
  end = Some [[Some [0; 94; 1; 0]; Some [0; 194; 1; 0]; Some [0; 38; 2; 0]]; [Some [0; 94; 1; 0]; Some [0; 194; 1; 0]; Some [0; 38; 2; 0]]].
Proof. vm_compute. reflexivity. Qed.

(** A payload that is too short is not refused: the arrays have items outside of it. *)
Theorem C57_short_refuted : exists d g v i, na_new true 0x2 3 2 d = Ok g /\ zlen d < size_for_audio_format 0x2 2 3 /\
  nth_error (na_views g) 0 = Some v /\ 0 <= i < av_count v /\ zlen d <= av_addr v i.
Proof. exists [1; 0; 2; 0]. do 2 eexists. exists 2. split; [vm_compute; reflexivity|]. split; [reflexivity|]. split; [reflexivity|]. split; [split; [discriminate|reflexivity]|discriminate]. Qed.
Print Assumptions C57_short_refuted.

(** Compressed audio is not refused: it is read as 16 bits in planes. *)
Theorem C57_compressed_refuted : exists g, na_new true 0x200 3 2 na_pcm = Ok g /\ na_get g 1 0 = Some [254; 255].
Proof. eexists. split; vm_compute; reflexivity. Qed.
Print Assumptions C57_compressed_refuted.
