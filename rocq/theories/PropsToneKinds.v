(** C78: silence is silent, and a tone of 1 kHz repeats. *)
From Verif Require Import Base CogEnums VideoLayout LayoutSpec PatternTime Tone PatternSpec PatternTimeProofs ToneKinds ToneKindsSpec ToneKindsProofs.

(** Every grain of a silence is as long as its format says, and all zero; off the grid there is none. *)
Theorem C78_silence : forall a r size d, In (ta_format a, (r, size, d)) tone_table -> args_ok a r ->
  exists t, new_silence a = Ok t /\
  forall k key, let c := count_at k key (ta_rate a, 1) in
    (c mod ta_samples a <> 0 -> snd (tone_get k t [] key) = Ok None) /\
    (c mod ta_samples a = 0 -> exists data, nothing (size_for_audio_format (ta_format a) (ta_channels a) (ta_samples a)) data /\
      snd (tone_get k t [] key) = Ok (Some (mkTg (grid k (ta_rate a, 1) c) (tone_rate t) data))).
Proof. exact silence_silent. Qed.
Print Assumptions C78_silence.
(** Formats that are not in the table are refused, but for planes of 24 bits. *)
Theorem C78_formats : forall a, ta_samples a <> 0 -> ta_rate a <> 0 -> ~ In (ta_format a) (0x4 :: map fst tone_table) -> new_silence a = Err EValue.
Proof. exact silence_refused. Qed.
Print Assumptions C78_formats.
Theorem C78_division : forall a, ta_samples a = 0 \/ ta_rate a = 0 -> new_silence a = Err EZeroDiv.
Proof. exact no_division. Qed.
Print Assumptions C78_division.
(** In these every grain lacks a quarter of its bytes (tone.py 149). *)
Theorem C78_planes_24_refuted : forall a, ta_format a = 0x4 -> args_ok a Planes -> exists t, new_silence a = Ok t /\
  forall k key, let c := count_at k key (ta_rate a, 1) in c mod ta_samples a = 0 -> exists data, nothing (3 * ta_channels a * ta_samples a) data /\
    snd (tone_get k t [] key) = Ok (Some (mkTg (grid k (ta_rate a, 1) c) (tone_rate t) data)) /\ zlen data < size_for_audio_format (ta_format a) (ta_channels a) (ta_samples a).
Proof. exact silence_planes. Qed.
Print Assumptions C78_planes_24_refuted.
Example C78_silence_ex :
  (let run a key := rbind (new_silence a) (fun t => snd (tone_get example_clock t [] key)) in
   run (mkTa 3 2 0x2 48000) (TvTime 0) = Ok (Some (mkTg 0 (16000, 1) (repeat 0 12))) /\ run (mkTa 3 2 0x2 48000) (TvCount 1 (48000, 1)) = Ok None /\
   run (mkTa 2 1 0x4 48000) (TvTime 0) = Ok (Some (mkTg 0 (24000, 1) (repeat 0 6))) /\
   payload_of (run no_tone_args (TvTime 0)) = Ok (Some (repeat 0 (Z.to_nat 3840))) /\
   run (mkTa 1 1 0x1a (-48000)) (TvTime 0) = Ok (Some (mkTg 0 (-48000, 1) [0; 0; 0; 128])) /\
   run (mkTa 1 1 0x2e (-48000)) (TvTime 0) = Ok (Some (mkTg 0 (-48000, 1) [0; 0; 0; 0; 0; 0; 0; 128])) /\
   rbind (new_silence no_tone_args) (fun t => Ok (tone_rate t, t_sample_rate t, t_format t)) = Ok ((25, 1), 48000, 0x2) /\
   run (mkTa 1 1 0x2 0) (TvTime 0) = Err EZeroDiv /\ run (mkTa 1 1 0x200 48000) (TvTime 0) = Err EValue).
Proof. vm_compute. repeat split. Qed.

(** A tone of 1 kHz: every channel has the waveform, which is a millisecond long, or a second where a millisecond is no whole number of samples. *)
Theorem C78_tone : forall a wave r size d, In (ta_format a, (r, size, d)) tone_table -> args_ok a r -> (forall n, sample_fits d (wave d n)) ->
  exists t p, new_tone1k a wave = Ok t /\ (if ta_rate a mod 1000 =? 0 then p * 1000 = ta_rate a else p = ta_rate a) /\
  forall k key, let c := count_at k key (ta_rate a, 1) in
    (c mod ta_samples a <> 0 -> snd (tone_get k t [] key) = Ok None) /\
    (c mod ta_samples a = 0 -> exists data, snd (tone_get k t [] key) = Ok (Some (mkTg (grid k (ta_rate a, 1) c) (fraction (ta_rate a) (ta_samples a)) data)) /\
      zlen data = size_for_audio_format (ta_format a) (ta_channels a) (ta_samples a) /\
      forall ch i, 0 <= ch < ta_channels a -> 0 <= i < ta_samples a ->
        little_endian (sample_bytes size data (position r (ta_channels a) (ta_samples a) ch i)) = wave d ((c + i) mod p) mod 2 ^ (8 * size)).
Proof. exact tone1k_samples. Qed.
Print Assumptions C78_tone.
(** So it repeats, whatever the waveform, even one that does not fit. *)
Theorem C78_repeats : forall a wave t, new_tone1k a wave = Ok t -> 0 < ta_rate a -> exists p, (if ta_rate a mod 1000 =? 0 then p * 1000 = ta_rate a else p = ta_rate a) /\
  forall k key key', let c := count_at k key (ta_rate a, 1) in let c' := count_at k key' (ta_rate a, 1) in
    c mod ta_samples a = 0 -> c' mod ta_samples a = 0 -> (c - c') mod p = 0 -> payload_of (snd (tone_get k t [] key)) = payload_of (snd (tone_get k t [] key')).
Proof. exact tone1k_repeats. Qed.
Print Assumptions C78_repeats.
Example C78_repeats_ex :
  (let run a n := payload_of (rbind (new_tone1k a (fun _ n => n)) (fun t => snd (tone_get example_clock t [] (TvCount n (ta_rate a, 1))))) in
   run (mkTa 2 1 0x2 48000) 6 = Ok (Some [6; 0; 7; 0]) /\ run (mkTa 2 1 0x2 48000) 54 = Ok (Some [6; 0; 7; 0]) /\ run (mkTa 2 3 0x0 48000) 54 = Ok (Some [6; 0; 7; 0; 6; 0; 7; 0; 6; 0; 7; 0]) /\
   run (mkTa 2 1 0x2 1500) 1498 = Ok (Some [218; 5; 219; 5]) /\ run (mkTa 2 1 0x2 1500) 2998 = Ok (Some [218; 5; 219; 5])).
Proof. vm_compute. repeat split. Qed.
