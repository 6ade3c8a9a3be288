(** Grains for the examples of PropsTime.v. *)
From Coq Require Import String Lia.
From Verif Require Import Base PyValue CogEnums PatternTime PatternSpec GsfPrim GsfDecode GsfEncode GsfEncState GsfExamples GrainObj GrainSet GrainSetExample GrainGsf GrainTime GrainTimeSpec.
Local Open Scope list_scope.

(** Audio at 48000 samples a second from time [t]. *)
Definition gt_audio (t n : Z) : gobj := ex_object (kw_audio 5 (mkKw (Some 1) (Some 2) (Some t) None (Some 900) (48000, n) (n, 48000)) 0 n 1 48000 ANone).
(** 3, 2 and 4 samples one after the other, from count 1000 on. *)
Definition gt_turn : list gobj := [gt_audio 20833333 3; gt_audio 20895833 2; gt_audio 20937500 4].
Definition gt_ranges (os : list gobj) : list (res span) := map (fun o => rbind (origin_timerange example_clock o) (normalise_range example_clock o)) os.
(** Coded pictures at 25 a second, the first shown two pictures later. *)
Definition gt_coded (t : Z) (later : option Z) : gobj :=
  ex_object (kw_coded_video 5 (mkKw (Some 1) (Some 2) (Some t) None (Some 900) (25, 1) (1, 25)) H264 16 8 None None (Some true) later None 0 None (ABytes [1; 2; 3])).
Definition gt_still : gobj :=
  ex_object (kw_coded_video 5 (mkKw (Some 1) (Some 2) (Some 1000) None (Some 900) (0, 1) (1, 25)) H264 16 8 None None (Some true) (Some 2) None 0 None (ABytes [1; 2; 3])).
Definition gt_default : gobj := ex_object (kw_audio 5 (mkKw (Some 1) (Some 2) (Some 1000) None (Some 900) (25, 1) (1, 25)) 0 0 0 0 ANone).
(** Written to a file of a version of the format, and the object read from it. *)
Definition gt_again (major : Z) (o : gobj) : gobj :=
  match rbind (read_grain o) (fun g => dumps [g] (ex_uuid 5) [] major 0 (ex_uuid 9) ex_created false) with
  | Ok b => match decode_file (mkCfg None LoadImmediately true true true false) (mkFile b 0 false false) with
            | Ok (_, ([i], _, _)) => ex_object (item_object 77 b i)
            | _ => gt_default end
  | _ => gt_default end.
