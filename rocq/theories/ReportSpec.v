(** What the report of a comparison, [failing_attributes] of its result, should say. *)
From Coq Require Import String.
From Verif Require Import Base PyValue CogEnums GrainObj Compare CompareSpec.
Local Open Scope list_scope.

(** The attributes that are compared with ==, of all grains and of those of one type. *)
Definition plain_names : list str := [$"grain_type"; $"src_id"; $"flow_id"; $"rate"; $"duration"; $"length"].
Definition time_names : list str := [$"origin_timestamp"; $"sync_timestamp"; $"creation_timestamp"].
Definition own_names : list (str * list str) :=
  [($"event", [$"event_type"; $"topic"]);
   ($"audio", [$"cog_audio_format"; $"samples"; $"channels"; $"sample_rate"]);
   ($"coded_audio", [$"cog_audio_format"; $"samples"; $"channels"; $"sample_rate"; $"priming"; $"remainder"]);
   ($"video", [$"cog_frame_format"; $"width"; $"height"; $"cog_frame_layout"])].
Definition coded_names : list str :=
  [$"cog_frame_format"; $"coded_width"; $"coded_height"; $"origin_width"; $"origin_height"; $"is_key_frame"; $"temporal_offset"; $"cog_frame_layout"].
(** The types with a format: its name, whether PSNR options count and how the payload is looked at. *)
Definition formats : list (str * (str * bool * (Z -> kind))) :=
  [($"audio", ($"cog_audio_format", true, audio_kind)); ($"coded_audio", ($"cog_audio_format", false, fun _ => Bytes));
   ($"video", ($"cog_frame_format", true, fun _ => Bytes)); ($"coded_video", ($"cog_frame_format", false, fun _ => Bytes))].
Definition both_type (a b : gobj) (t : str) : Prop := has_type a t /\ has_type b t.

(** Payloads are not compared if the types or the formats differ. *)
Inductive incomparable (a b : gobj) : Prop :=
| inc_type : ~ same_attr a b $"grain_type" -> incomparable a b
| inc_format t name w k f g : In (t, (name, w, k)) formats -> both_type a b t ->
    getattr a name = Ok (PInt f) -> getattr b name = Ok (PInt g) -> f <> g -> incomparable a b.
(** Two payloads count as the same if both are missing, or if they agree and are not to be ignored. *)
Definition same_payload (k : kind) (opts : list copt) (a b : gobj) : Prop :=
  (get_data a = Ok None /\ get_data b = Ok None) \/
  exists x y, get_data a = Ok (Some x) /\ get_data b = Ok (Some y) /\ ~ waived opts (path $"data") /\ payload_agrees k x y.
Definition psnr_asked (opts : list copt) : Prop := exists m, In (OPsnr (path $"data") m) opts.

(** Of all grains. *)
Inductive reported_common (opts : list copt) (a b : gobj) : str -> Prop :=
| rep_plain n : In n plain_names -> ~ same_attr a b n -> reported_common opts a b n
| rep_time n s t : In n time_names -> getattr a n = Ok (PTime s) -> getattr b n = Ok (PTime t) -> ~ expected opts (path n) (s - t) ->
    reported_common opts a b n
| rep_labels d e : labels a = Ok d -> labels b = Ok e -> ~ lists_agree opts (dicts_agree opts) (path $"timelabels") d e ->
    reported_common opts a b $"timelabels".
(** Of the grains of one type. *)
Inductive reported_own (opts : list copt) (a b : gobj) : str -> Prop :=
| rep_own t names n : In (t, names) own_names -> both_type a b t -> In n names -> ~ same_attr a b n -> reported_own opts a b n
| rep_events d e : both_type a b $"event" ->
    rbind (event_entries a) (map_res as_dict) = Ok d -> rbind (event_entries b) (map_res as_dict) = Ok e ->
    ~ lists_agree opts (dicts_agree opts) (path $"event_data") d e -> reported_own opts a b $"event_data"
| rep_coded n : both_type a b $"coded_video" -> In n coded_names -> ~ same_or_none a b n -> reported_own opts a b n
| rep_offsets x y : both_type a b $"coded_video" ->
    rbind (offsets a) (map_res as_number) = Ok x -> rbind (offsets b) (map_res as_number) = Ok y ->
    ~ lists_agree opts (numbers_agree opts) (path $"unit_offsets") x y -> reported_own opts a b $"unit_offsets"
| rep_incomparable : incomparable a b -> reported_own opts a b $"data"
| rep_data t name w k f : In (t, (name, w, k)) formats -> both_type a b t -> getattr a name = Ok (PInt f) -> getattr b name = Ok (PInt f) ->
    (w = true -> ~ psnr_asked opts) -> ~ same_payload (k f) opts a b -> reported_own opts a b $"data"
| rep_unknown t : getattr a $"grain_type" = Ok t -> same_attr a b $"grain_type" -> ~ In t (map PStr known_types) ->
    ~ same_payload Bytes opts a b -> reported_own opts a b $"data".
Definition reported (opts : list copt) (a b : gobj) (n : str) : Prop := reported_common opts a b n \/ reported_own opts a b n.

(** What is reported without making the comparison fail. *)
Inductive excused (opts : list copt) (a b : gobj) (n : str) : Prop :=
| exc_waived : waived opts (path n) -> excused opts a b n
| exc_creation : n = $"creation_timestamp" -> ~ In (Include $"creation_timestamp") opts -> excused opts a b n
| exc_length m : n = $"length" -> both_type a b $"event" -> In m [$"event_type"; $"topic"; $"event_data"] -> waived opts (path m) -> excused opts a b n
| exc_data : n = $"data" -> incomparable a b -> excused opts a b n.
