(** What comparing a grain with what assignments have made of it should report. *)
From Coq Require Import String.
From Verif Require Import Base PyValue CogEnums GrainObj CompareSpec.
Local Open Scope list_scope.

(** The attributes that assignments can reach and that are compared. *)
Definition compared (c : gclass) : list str :=
  [$"grain_type"; $"src_id"; $"flow_id"; $"rate"; $"duration"; $"length"; $"origin_timestamp"; $"sync_timestamp"; $"creation_timestamp"] ++
  match c with
  | KGrain => []
  | KVideo => [$"cog_frame_format"; $"width"; $"height"; $"cog_frame_layout"]
  | KCodedVideo => [$"cog_frame_format"; $"coded_width"; $"coded_height"; $"origin_width"; $"origin_height"; $"is_key_frame"; $"temporal_offset"; $"cog_frame_layout"]
  | KAudio => [$"cog_audio_format"; $"samples"; $"channels"; $"sample_rate"]
  | KCodedAudio => [$"cog_audio_format"; $"samples"; $"channels"; $"sample_rate"; $"priming"; $"remainder"]
  | KEvent => [$"event_type"; $"topic"]
  end.
Definition format_names : list str := [$"cog_frame_format"; $"cog_audio_format"].
(** One that reads differently now is reported, and with the format also the payload. *)
Inductive told (o o' : gobj) : str -> Prop :=
| told_attr n : In n (compared (o_class o)) -> ~ same_or_none o o' n -> told o o' n
| told_data n f g : In n format_names -> getattr o n = Ok (PInt f) -> getattr o' n = Ok (PInt g) -> f <> g -> told o o' $"data".
(** Nothing that could be read has become unreadable. *)
Definition still_readable (o o' : gobj) : Prop :=
  forall n e, In n (compared (o_class o)) -> getattr o' n = Err e -> getattr o n = Err e.
(** What no comparison looks at. *)
Definition overlooked : list str := [$"extension"; $"source_aspect_ratio"; $"pixel_aspect_ratio"].
