(** Grains for the examples of C64. *)
From Coq Require Import String.
From Verif Require Import Base CogEnums VideoLayout PyValue GrainObj GrainGsf NpView NpConvert NpObject.
Local Open Scope list_scope.

Definition nx_u5 (flow fmt : Z) : Z := 1000 * flow + fmt.
Definition nx_noise : oracle := mkOracle (fun _ _ _ _ => 0) (fun _ _ _ _ => 0).
Definition nx_kw : kw := mkKw (Some 1) (Some 2) (Some 30) (Some 40) (Some 50) (25, 1) (1, 25).
Definition nx_or (r : res gobj) : gobj := match r with Ok o => o | Err _ => mkO KGrain [] None None end.
Definition nx_video (f w h : Z) (d : bytes) : gobj := nx_or (np_kw 5 nx_kw f w h 1 (ABytes d)).
Definition nx_then (r : res gobj) : res (option bytes * list pv) :=
  rbind r (fun o => rbind (map_res (getattr o) [$"cog_frame_format"; $"flow_id"; $"origin_timestamp"; $"creation_timestamp"; $"cog_frame_layout"]) (fun l => Ok (o_data o, l))).
(** With a time label. *)
Definition nx_labelled : gobj :=
  let m := [($"grain", PDict [($"grain_type", PStr $"video"); ($"source_id", PUuidStr 1); ($"flow_id", PUuidStr 2); ($"origin_timestamp", PTimeStr 30); ($"sync_timestamp", PTimeStr 40); ($"creation_timestamp", PTimeStr 50);
    ($"rate", frac_dict 25 1); ($"duration", frac_dict 1 25);
    ($"timelabels", PList [PDict [($"tag", PStr $"tag"); ($"timelabel", PDict [($"frames_since_midnight", PInt 7); ($"frame_rate_numerator", PInt 25); ($"frame_rate_denominator", PInt 1); ($"drop_frame", PBool false)])]]);
    ($"cog_frame", PDict [($"format", PInt U8_422); ($"width", PInt 2); ($"height", PInt 2); ($"layout", PInt 1); ($"extension", PInt 0); ($"components", PList (map comp_dict (components_for_format U8_422 2 2)))])])] in
  nx_or (init KVideo 5 m (ABytes [10; 20; 30; 40; 1; 2; 3; 4])).
Definition nx_labels (r : res gobj) : res Z := rbind r (fun o => rbind (labels o) (fun l => Ok (zlen l))).
