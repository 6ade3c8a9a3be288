(** What C78 says about tones of 1 kHz and silence. *)
From Verif Require Import Base VideoLayout LayoutSpec PatternTime Tone PatternSpec ToneKinds.

(** Arguments that make sense for a format: there are samples and channels, and channels come in pairs if the format has pairs. *)
Definition args_ok (a : tone_args) (r : arrangement) : Prop :=
  0 < ta_samples a /\ 0 < ta_channels a /\ 0 < ta_rate a /\ (r = Pairs -> ta_channels a mod 2 = 0).
(** So many bytes of nothing. *)
Definition nothing (n : Z) (b : bytes) : Prop := zlen b = n /\ Forall (fun x => x = 0) b.
(** The payload of what get gives. *)
Definition payload_of (r : res (option tone_grain)) : res (option bytes) := match r with Ok (Some g) => Ok (Some (tg_data g)) | Ok None => Ok None | Err e => Err e end.
