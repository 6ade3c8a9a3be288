(** Tones of 1 kHz and silence: /repo/mediagrains/patterngenerators/audio/tone.py 184-222, and of audio/abc.py 29-37 the defaults.
    Simplified: a sample rate too large for a float is not modelled. *)
From Verif Require Import Base CogEnums VideoLayout PatternTime Tone.

(** The arguments both take, with their defaults, tone.py 184-191 and 205-211. *)
Record tone_args := mkTa { ta_samples : Z; ta_channels : Z; ta_format : Z; ta_rate : Z }.
Definition no_tone_args : tone_args := mkTa 1920 1 0x2 48000.

(** Tone1K, tone.py 184-202. As in [tone], the sine and the volume are in the waveform. *)
Definition new_tone1k (a : tone_args) (wave : depth -> Z -> Z) : res tone :=
  new_tone (mkTone (ta_samples a) (ta_channels a) (ta_format a) (ta_rate a) 1000 wave).

(** The one value of a silence, tone.py 61-62 and 90-114: sin(0.0 / rate) * 0.0 is 0.0, or -0.0 with a negative rate, which has a bit set as a float
    and is 0 when rounded. *)
Definition silent_wave (rate : Z) (d : depth) (_ : Z) : Z :=
  if rate <? 0 then match d with DFloat => 2 ^ 31 | DDouble => 2 ^ 63 | _ => 0 end else 0.
(** Silence, tone.py 205-222: the constructor divides by the number of samples (abc.py 38) and then by the rate (tone.py 62). *)
Definition new_silence (a : tone_args) : res tone :=
  if ta_samples a =? 0 then Err EZeroDiv
  else if ta_rate a =? 0 then Err EZeroDiv
  else new_tone (mkTone (ta_samples a) (ta_channels a) (ta_format a) (ta_rate a) 0 (silent_wave (ta_rate a))).
