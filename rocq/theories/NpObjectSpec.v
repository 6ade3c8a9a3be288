(** What converting a video grain should keep. *)
From Coq Require Import String.
From Verif Require Import Base CogEnums PyValue GrainObj GrainGsf.
Local Open Scope list_scope.

(** A grain with its identifiers, times, rates and layout. *)
Record labelled (o : gobj) (src flow origin sync : Z) (rate duration : Z * Z) (layout : Z) : Prop := {
  lb_source : getattr o $"source_id" = Ok (PUuid src);
  lb_flow : getattr o $"flow_id" = Ok (PUuid flow);
  lb_origin : getattr o $"origin_timestamp" = Ok (PTime origin);
  lb_sync : getattr o $"sync_timestamp" = Ok (PTime sync);
  lb_rate : getattr o $"rate" = Ok (PFrac (fst rate) (snd rate)) /\ 0 < snd rate /\ Z.gcd (fst rate) (snd rate) = 1;
  lb_duration : getattr o $"duration" = Ok (PFrac (fst duration) (snd duration)) /\ 0 < snd duration /\ Z.gcd (fst duration) (snd duration) = 1;
  lb_layout : getattr o $"cog_frame_layout" = Ok (PInt layout) }.
(** The flow of a grain of the format f after conversions: each to another format makes a new one of it. *)
Fixpoint flow_after (u5 : Z -> Z -> Z) (f flow : Z) (fmts : list Z) : Z :=
  match fmts with [] => flow | g :: fmts => flow_after u5 g (if g =? f then flow else u5 flow g) fmts end.
Definition last_of (f : Z) (fmts : list Z) : Z := fold_left (fun _ g => g) fmts f.
