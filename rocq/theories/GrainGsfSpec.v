(** What a grain object has in common with the one read back from a GSF file, said with the attributes of the two. *)
From Coq Require Import String.
From Verif Require Import Base PyValue Json GrainObj EventSpec.
Local Open Scope list_scope.

(** The type that goes with each class; a grain whose type was changed by hand is another matter. *)
Definition own_type (c : gclass) : str :=
  match c with
  | KGrain => $"empty" | KVideo => $"video" | KCodedVideo => $"coded_video" | KAudio => $"audio" | KCodedAudio => $"coded_audio" | KEvent => $"event"
  end.
Definition of_own_type (o : gobj) : Prop := getattr o $"grain_type" = Ok (PStr (own_type (o_class o))).
Definition number_names (c : gclass) : list str :=
  match c with
  | KVideo => [$"width"; $"height"; $"extension"]
  | KCodedVideo => [$"origin_width"; $"origin_height"; $"coded_width"; $"coded_height"]
  | KAudio => [$"samples"; $"channels"; $"sample_rate"]
  | KCodedAudio => [$"samples"; $"channels"; $"sample_rate"; $"priming"; $"remainder"]
  | _ => []
  end.
Definition enum_names (c : gclass) : list str :=
  match c with
  | KVideo | KCodedVideo => [$"format"; $"cog_frame_format"; $"layout"; $"cog_frame_layout"]
  | KAudio | KCodedAudio => [$"format"; $"cog_audio_format"]
  | _ => []
  end.
Definition ratio_names : list str := [$"source_aspect_ratio"; $"pixel_aspect_ratio"].

(** The value of a key that is an integer (or a boolean, which is one). *)
Definition whole (v : pv) (z : Z) : Prop := as_q v = Some (z, 1).
Definition at_key (k : str) (d : dict) (z : Z) : Prop := exists v, dget k d = Some v /\ whole v z.
(** n'/m' is n/m in lowest terms; a rate with a 0 in it is 0/1. *)
Definition lowest (n m n' m' : Z) : Prop :=
  (n = 0 \/ m = 0) /\ n' = 0 /\ m' = 1 \/ n <> 0 /\ m <> 0 /\ Z.gcd n' m' = 1 /\ 0 < m' /\ n' * m = n * m'.
Definition label_after (d d' : dict) : Prop :=
  exists tag t c n m x n' m', dget $"tag" d = Some (PStr tag) /\ dget $"timelabel" d = Some (PDict t) /\
    at_key $"frames_since_midnight" t c /\ at_key $"frame_rate_numerator" t n /\ at_key $"frame_rate_denominator" t m /\ dget $"drop_frame" t = Some x /\
    lowest n m n' m' /\
    d' = [($"tag", PStr tag); ($"timelabel", PDict [($"frames_since_midnight", PInt c); ($"frame_rate_numerator", PInt n');
                                                    ($"frame_rate_denominator", PInt m'); ($"drop_frame", PBool (truthy x))])].
(** The components lie one after the other from [start] on. *)
Inductive comps_after : Z -> list pv -> list pv -> Prop :=
| comps_none start : comps_after start [] []
| comps_one start d w h s n l l' : at_key $"width" d w -> at_key $"height" d h -> at_key $"stride" d s -> at_key $"length" d n -> comps_after (start + n) l l' ->
    comps_after start (PDict d :: l)
      (PDict [($"width", PInt w); ($"height", PInt h); ($"stride", PInt s); ($"length", PInt n); ($"offset", PInt start)] :: l').
(** Before version 9 there is no way to say that these are not known. *)
Definition key_after (major : Z) (v w : pv) : Prop :=
  match v with PNone => w = if major <? 9 then PBool true else PNone | _ => exists b, w = PBool b /\ whole v (Z.b2z b) end.
Definition temporal_after (major : Z) (v w : pv) : Prop :=
  match v with
  | PNone => w = if major <? 9 then PInt 2147483647 else PNone
  | _ => exists z, to_int v = Ok z /\ w = if (9 <=? major) && (z =? 2147483647) then PNone else PInt z
  end.

Record survives (major now : Z) (o o' : gobj) : Prop := {
  sv_class : o_class o' = o_class o;
  sv_same : forall n, In n ([$"grain_type"; $"source_id"; $"src_id"; $"flow_id"; $"rate"; $"duration"] ++ enum_names (o_class o)) ->
    getattr o' n = getattr o n /\ exists v, getattr o n = Ok v;
  sv_times : forall n, In n [$"origin_timestamp"; $"sync_timestamp"] ->
    exists t, getattr o n = Ok (PTime t) /\ getattr o' n = Ok (PTime (if major =? 7 then Z.abs t else t));
  sv_creation : getattr o' $"creation_timestamp" = Ok (PTime now);
  sv_labels : exists l l', labels o = Ok l /\ labels o' = Ok l' /\ Forall2 label_after l l';
  sv_numbers : forall n, In n (number_names (o_class o)) -> exists v z, getattr o n = Ok v /\ to_int v = Ok z /\ getattr o' n = Ok (PInt z);
  sv_ratios : o_class o = KVideo -> forall n, In n ratio_names ->
    exists v, getattr o n = Ok v /\ getattr o' n = Ok (match v with PFrac 0 _ => PNone | _ => v end);
  sv_components : o_class o = KVideo -> exists l l', in_section $"cog_frame" $"components" o = Ok (PList l) /\
    in_section $"cog_frame" $"components" o' = Ok (PList l') /\ comps_after 0 l l';
  sv_key : o_class o = KCodedVideo -> exists v w, getattr o $"is_key_frame" = Ok v /\ getattr o' $"is_key_frame" = Ok w /\ key_after major v w;
  sv_temporal : o_class o = KCodedVideo -> exists v w, getattr o $"temporal_offset" = Ok v /\ getattr o' $"temporal_offset" = Ok w /\ temporal_after major v w;
  sv_units : o_class o = KCodedVideo -> exists l u, offsets o = Ok l /\ offsets o' = Ok (map PInt u) /\ Forall2 whole l u;
  (** Not written at all. *)
  sv_lost : o_class o = KCodedVideo -> forall n, In n ratio_names -> getattr o' n = Ok PNone;
  sv_data : o_class o <> KEvent ->
    exists d, get_data o = Ok d /\
      get_data o' = Ok (match d, o_class o with
                        | None, KGrain | Some [], KGrain => None
                        | None, _ => Some [] | Some b, _ => Some b end) /\
      getattr o' $"length" = getattr o $"length" }.
(** What an event loses: the keys of its entries other than path, pre and post. *)
Definition event_survives (o o' : gobj) (p : payload) : Prop := exists p', shows o' p' /\ same_payload p p'.
(** Nothing but the time of creation differs. *)
Definition only_created (o o' : gobj) : Prop :=
  o_class o' = o_class o /\ o_data o' = o_data o /\ o_wait o' = o_wait o /\
  (forall k, k <> $"grain" -> dget k (o_meta o') = dget k (o_meta o)) /\
  (forall k, k <> $"creation_timestamp" -> field k o' = field k o).
