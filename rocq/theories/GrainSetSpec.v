(** What assigning an attribute should do: the attribute reads as what was assigned, under all its names, and nothing else changes. *)
From Coq Require Import String.
From Verif Require Import Base PyValue CogEnums GrainObj.
Local Open Scope list_scope.

(** The sorts of attributes, and the values of each sort. *)
Inductive sort := Anything | Identifier | Moment | Ratio | Member (l : list Z) | Whole | Flag.
Definition common_sorts : list (str * sort) :=
  [($"grain_type", Anything); ($"source_id", Identifier); ($"src_id", Identifier); ($"flow_id", Identifier);
   ($"origin_timestamp", Moment); ($"sync_timestamp", Moment); ($"creation_timestamp", Moment); ($"rate", Ratio); ($"duration", Ratio)].
Definition class_sorts (c : gclass) : list (str * sort) :=
  match c with
  | KGrain => []
  | KVideo => [($"format", Member frame_formats); ($"cog_frame_format", Member frame_formats); ($"width", Anything); ($"height", Anything);
      ($"layout", Member frame_layouts); ($"cog_frame_layout", Member frame_layouts); ($"extension", Anything); ($"source_aspect_ratio", Ratio); ($"pixel_aspect_ratio", Ratio)]
  | KCodedVideo => [($"format", Member frame_formats); ($"cog_frame_format", Member frame_formats); ($"layout", Member frame_layouts); ($"cog_frame_layout", Member frame_layouts);
      ($"origin_width", Anything); ($"origin_height", Anything); ($"coded_width", Anything); ($"coded_height", Anything);
      ($"is_key_frame", Flag); ($"temporal_offset", Anything); ($"source_aspect_ratio", Ratio); ($"pixel_aspect_ratio", Ratio)]
  | KAudio => [($"format", Member audio_formats); ($"cog_audio_format", Member audio_formats); ($"samples", Whole); ($"channels", Whole); ($"sample_rate", Whole)]
  | KCodedAudio => [($"format", Member audio_formats); ($"cog_audio_format", Member audio_formats); ($"samples", Anything); ($"channels", Anything);
      ($"sample_rate", Anything); ($"priming", Anything); ($"remainder", Anything)]
  | KEvent => [($"event_type", Anything); ($"topic", Anything)]
  end.
Definition sorts (c : gclass) : list (str * sort) := class_sorts c ++ common_sorts.

(** An assignment raises, or from then on the attribute reads as something (which may be an exception). *)
Inductive effect := Refused (e : err) | Reads (r : res pv).
Inductive accepts : sort -> pv -> effect -> Prop :=
| ac_any v : accepts Anything v (Reads (Ok v))
| ac_id u : accepts Identifier (PUuid u) (Reads (Ok (PUuid u)))
| ac_id_text u : accepts Identifier (PUuidStr u) (Reads (Ok (PUuid u)))
| ac_id_junk v : v = PNone \/ (exists s, v = PStr s) \/ (exists t, v = PTimeStr t) -> accepts Identifier v (Reads (Err EValue))
| ac_time t : accepts Moment (PTime t) (Reads (Ok (PTime t)))
| ac_time_text t : accepts Moment (PTimeStr t) (Reads (Ok (PTime t)))
| ac_time_junk v : (exists s, v = PStr s) \/ (exists u, v = PUuidStr u) -> accepts Moment v (Reads (Err EValue))
| ac_time_other v : is_text v = false -> (forall t, v <> PTime t) -> accepts Moment v (Refused EValue)
| ac_ratio v n d n' d' : as_q v = Some (n, d) -> 0 < d' -> Z.gcd n' d' = 1 -> n' * d = n * d' -> accepts Ratio v (Reads (Ok (PFrac n' d')))
| ac_ratio_other v : as_q v = None -> accepts Ratio v (Refused EType)
| ac_member l v z : to_int v = Ok z -> In z l -> accepts (Member l) v (Reads (Ok (PInt z)))
| ac_member_junk l v z : to_int v = Ok z -> ~ In z l -> accepts (Member l) v (Reads (Err EValue))
| ac_member_other l v e : to_int v = Err e -> accepts (Member l) v (Refused e)
| ac_whole v z : to_int v = Ok z -> accepts Whole v (Reads (Ok (PInt z)))
| ac_whole_other v e : to_int v = Err e -> accepts Whole v (Refused e)
| ac_flag v : v <> PNone -> accepts Flag v (Reads (Ok (PBool (truthy v))))
| ac_no_flag : accepts Flag PNone (Reads (Ok PNone)).
(** Nothing is said of other objects as identifiers, whose text is not modelled, nor of numbers given as text, identifiers or
    times, whose conversion is not modelled. *)
Definition sayable (s : sort) (v : pv) : Prop :=
  pv_ok v /\
  match s with
  | Identifier => v = PNone \/ is_text v = true \/ exists u, v = PUuid u
  | Ratio | Member _ | Whole => is_text v = false /\ (forall u, v <> PUuid u) /\ (forall t, v <> PTime t)
  | _ => True
  end.

(** Two names of one attribute. *)
Definition two_names : list (str * str) :=
  [($"source_id", $"src_id"); ($"format", $"cog_frame_format"); ($"layout", $"cog_frame_layout"); ($"format", $"cog_audio_format")].
Definition same_attr (n m : str) : bool :=
  zlist_eqb n m || existsb (fun p => (zlist_eqb n (fst p) && zlist_eqb m (snd p)) || (zlist_eqb m (fst p) && zlist_eqb n (snd p))) two_names.
(** How [m] reads after assignments with these effects, given how it read before. *)
Fixpoint last_reading (m : str) (l : list (str * effect)) (before : res pv) : res pv :=
  match l with
  | [] => before
  | (n, Reads r) :: l => last_reading m l (if same_attr n m then r else before)
  | (_, Refused _) :: l => last_reading m l before
  end.
Definition outcome_of (e : effect) : res unit := match e with Refused e => Err e | Reads _ => Ok tt end.

(** The parts of a grain that attributes are kept in. *)
Definition part_of (c : gclass) : option str :=
  match c with KGrain => None | KVideo => Some $"cog_frame" | KCodedVideo => Some $"cog_coded_frame" | KAudio => Some $"cog_audio" | KCodedAudio => Some $"cog_coded_audio" | KEvent => Some $"event_payload" end.
Definition shaped (o : gobj) : Prop :=
  exists g, dget $"grain" (o_meta o) = Some (PDict g) /\
    match part_of (o_class o) with None => True | Some s => exists d, dget s g = Some (PDict d) /\ NoDup (map fst d) end.
(** What no assignment touches. *)
Record untouched (o o' : gobj) : Prop := {
  ut_class : o_class o' = o_class o;
  ut_data : o_data o' = o_data o /\ o_wait o' = o_wait o;
  ut_meta : forall k, k <> $"grain" -> dget k (o_meta o') = dget k (o_meta o);
  ut_fields : forall k, ~ In k ([$"grain_type"; $"source_id"; $"flow_id"; $"origin_timestamp"; $"sync_timestamp"; $"creation_timestamp"; $"rate"; $"duration"]) ->
    part_of (o_class o) <> Some k -> field k o' = field k o;
  ut_labels : labels o' = labels o;
  ut_components : o_class o = KVideo -> in_section $"cog_frame" $"components" o' = in_section $"cog_frame" $"components" o;
  ut_offsets : o_class o = KCodedVideo -> offsets o' = offsets o;
  ut_entries : o_class o = KEvent -> event_entries o' = event_entries o }.

(** The effects of assignments, one by one. *)
Definition effect_of (c : gclass) (nv : str * pv) (ne : str * effect) : Prop :=
  fst ne = fst nv /\ exists so, dget (fst nv) (sorts c) = Some so /\ accepts so (snd nv) (snd ne).
(** The grains that constructors make. *)
Inductive made : gobj -> Prop :=
| made_class c now m a o : pv_ok (PDict m) -> init c now m a = Ok o -> made o
| made_factory now m a o : pv_ok (PDict m) -> GrainFactory now m a = Ok o -> made o
| made_grain now k a o : kw_factory now k a = Ok o -> made o
| made_video now k fmt w h layout a o : kw_video now k fmt w h layout a = Ok o -> made o
| made_coded_video now k fmt ow oh cw ch key temporal len layout offs a o : kw_coded_video now k fmt ow oh cw ch key temporal len layout offs a = Ok o -> made o
| made_audio now k fmt samples channels rate a o : kw_audio now k fmt samples channels rate a = Ok o -> made o
| made_coded_audio now k fmt samples channels priming remainder rate len a o : kw_coded_audio now k fmt samples channels priming remainder rate len a = Ok o -> made o
| made_event now k kind topic a o : kw_event now k kind topic a = Ok o -> made o.
