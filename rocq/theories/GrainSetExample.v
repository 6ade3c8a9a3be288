(** Grains for the examples in PropsSet.v. *)
From Coq Require Import String.
From Verif Require Import Base PyValue CogEnums GrainObj GrainSet.
Local Open Scope list_scope.

Definition ex_kw : kw := mkKw (Some 1) (Some 2) (Some 1000) None (Some 900) (25, 1) (1, 25).
Definition ex_object (r : res gobj) : gobj := match r with Ok o => o | Err _ => mkO KGrain [] None None end.
Definition ex_still : gobj := ex_object (kw_video 5 ex_kw S16_422_10BIT 2 2 0 ANone).
Definition ex_coded : gobj := ex_object (kw_coded_video 5 ex_kw H264 16 8 None None (Some true) (Some 3) None 0 (Some [0; 4]) (ABytes [1; 2; 3])).
Definition ex_waiting : gobj := ex_object (kw_audio 5 ex_kw 2 4 1 48000 AWait).
(** Assignments to the coded frame: some are refused, some undone, one under its other name. *)
Definition ex_history : list (str * pv) :=
  [($"source_id", PUuid 7); ($"temporal_offset", PNone); ($"rate", PInt 50); ($"origin_timestamp", PInt 4); ($"src_id", PUuidStr 9);
   ($"format", PInt 1); ($"is_key_frame", PInt 0); ($"cog_frame_format", PNone); ($"source_aspect_ratio", PFrac 16 9); ($"topic", PStr $"x")].
