(** What a grain built from metadata has in its dictionary, said key by key. *)
From Coq Require Import String.
From Verif Require Import Base PyValue CogEnums GrainObj.
Local Open Scope list_scope.

(** The value supplied, or another. *)
Definition given (g : dict) (k : str) (v : pv) : pv := match dget k g with Some w => w | None => v end.
(** The standard fields and the values they start from. *)
Definition standard (now : Z) (g : dict) : dict :=
  let creation := given g $"creation_timestamp" (PTimeStr now) in
  let origin := given g $"origin_timestamp" creation in
  [($"grain_type", given g $"grain_type" (PStr $"empty")); ($"creation_timestamp", creation); ($"origin_timestamp", origin);
   ($"sync_timestamp", given g $"sync_timestamp" origin);
   ($"rate", given g $"rate" (PDict [($"numerator", PInt 0); ($"denominator", PInt 1)]));
   ($"duration", given g $"duration" (PDict [($"numerator", PInt 0); ($"denominator", PInt 1)]));
   ($"source_id", given g $"source_id" (PUuidStr 0)); ($"flow_id", given g $"flow_id" (PUuidStr 0))].
(** Objects are stored as text or as a numerator and a denominator. *)
Definition id_names : list str := [$"source_id"; $"flow_id"].
Definition time_names : list str := [$"origin_timestamp"; $"sync_timestamp"; $"creation_timestamp"].
Definition rate_names : list str := [$"rate"; $"duration"].
Definition plain (k : str) (v : pv) : pv :=
  match v with
  | PUuid u => if existsb (zlist_eqb k) id_names then PUuidStr u else v
  | PTime t => if existsb (zlist_eqb k) time_names then PTimeStr t else v
  | PFrac n d => if existsb (zlist_eqb k) rate_names then PDict [($"numerator", PInt n); ($"denominator", PInt d)] else v
  | _ => v
  end.
(** The field k of a grain built from the fields g. *)
Definition field_after (now : Z) (g : dict) (k : str) : option pv :=
  option_map (plain k) (match dget k (standard now g) with Some v => Some v | None => dget k g end).

(** ** The part for the class. *)
Definition type_name (c : gclass) : str :=
  match c with KGrain => [] | KVideo => $"video" | KCodedVideo => $"coded_video" | KAudio => $"audio" | KCodedAudio => $"coded_audio" | KEvent => $"event" end.
Definition part_name (c : gclass) : str :=
  match c with
  | KGrain => [] | KVideo => $"cog_frame" | KCodedVideo => $"cog_coded_frame" | KAudio => $"cog_audio" | KCodedAudio => $"cog_coded_audio" | KEvent => $"event_payload"
  end.
(** What is filled in: a video frame is filled in as a whole or, but for its components, not at all. *)
Definition part_defaults (c : gclass) : dict :=
  match c with
  | KGrain => []
  | KVideo => [($"components", PList [])]
  | KCodedVideo =>
      [($"format", PInt 0xfffffffe); ($"layout", PInt 0xfffffffe); ($"origin_width", PInt 0); ($"origin_height", PInt 0);
       ($"coded_width", PInt 0); ($"coded_height", PInt 0); ($"length", PInt 0)]
  | KAudio => [($"format", PInt 0xffffffff); ($"samples", PInt 0); ($"channels", PInt 0); ($"sample_rate", PInt 0)]
  | KCodedAudio =>
      [($"format", PInt 0xffffffff); ($"channels", PInt 0); ($"samples", PInt 0); ($"priming", PInt 0); ($"remainder", PInt 0); ($"sample_rate", PInt 48000)]
  | KEvent => [($"type", PStr []); ($"topic", PStr []); ($"data", PList [])]
  end.
Definition part_if_missing (c : gclass) : dict :=
  match c with
  | KVideo =>
      [($"format", PInt 0xfffffffe); ($"width", PInt 0); ($"height", PInt 0); ($"layout", PInt 0xfffffffe); ($"extension", PInt 0); ($"components", PList [])]
  | _ => part_defaults c
  end.
(** The fields that become numbers. *)
Definition numbers (c : gclass) : list str :=
  match c with KVideo | KCodedVideo => [$"format"; $"layout"] | KAudio | KCodedAudio => [$"format"] | _ => [] end.
Definition part_plain (c : gclass) (k : str) (v : pv) : pv :=
  if existsb (zlist_eqb k) (numbers c) then match to_int v with Ok z => PInt z | Err _ => v end
  else match c, v with
       | KVideo, PDict [] | KVideo, PStr [] => if zlist_eqb k $"components" then PList [] else v
       | _, _ => v
       end.
Definition part_after (c : gclass) (g : dict) (k : str) : option pv :=
  option_map (part_plain c k)
    (match dget (part_name c) g with
     | Some (PDict f) => match dget k f with Some v => Some v | None => dget k (part_defaults c) end
     | _ => dget k (part_if_missing c)
     end).

(** ** The whole. *)
(** The fields supplied. *)
Definition fields (m : dict) : dict := match dget $"grain" m with Some (PDict g) => g | _ => [] end.
Record built (c : gclass) (now : Z) (m : dict) (m' : dict) : Prop := {
  b_top : forall k, k <> $"grain" -> dget k m' = match dget k m with Some v => Some v | None => if zlist_eqb k $"@_ns" then Some (PStr $"urn:x-ipstudio:ns:0.1") else None end;
  b_dict : exists g, dget $"grain" m' = Some (PDict g);
  b_field : forall k, c = KGrain \/ (k <> part_name c /\ k <> $"grain_type") -> dget k (fields m') = field_after now (fields m) k;
  b_type : c <> KGrain -> dget $"grain_type" (fields m') = Some (PStr (type_name c));
  b_part : c <> KGrain -> exists f, dget (part_name c) (fields m') = Some (PDict f) /\ forall k, dget k f = part_after c (fields m) k }.

(** When a grain can be built. *)
Definition time_like (v : pv) : Prop := (exists t, v = PTime t) \/ is_text v = true.
Record can_build (c : gclass) (now : Z) (m : dict) : Prop := {
  cb_dict : match dget $"grain" m with Some (PDict _) => True | Some _ => False | None => c <> KVideo end;
  cb_times : forall k v, In k time_names -> dget k (standard now (fields m)) = Some v -> time_like v;
  cb_part : c <> KGrain -> match dget (part_name c) (fields m) with Some (PDict _) | None => True | Some _ => False end;
  cb_numbers : forall k f, In k (numbers c) -> dget (part_name c) (fields m) = Some (PDict f) ->
    match dget k f with Some v => exists z, to_int v = Ok z | None => c <> KVideo end;
  cb_components : c = KVideo -> forall f v, dget $"cog_frame" (fields m) = Some (PDict f) -> dget $"components" f = Some v -> exists n, py_len v = Ok n }.
(** The payload of a grain built from metadata: without one, the classes other than Grain and EventGrain get an empty one. *)
Definition payload_after (c : gclass) (a : darg) : option bytes * option Z :=
  match c, a with
  | KEvent, AWait => (None, Some 0)
  | KEvent, _ => (None, None)
  | _, ABytes b => (Some b, None)
  | _, AWait => (None, Some 0)
  | KGrain, ANone => (None, None)
  | _, ANone => (Some [], None)
  end.
(** The payload argument that stands for a grain's own payload. *)
Definition own_payload (o : gobj) : darg :=
  match o_data o, o_wait o with Some b, _ => ABytes b | None, Some _ => AWait | None, None => ANone end.

(** ** The constructors with keyword arguments: the attributes are the arguments. *)
Definition or_else {A} (o : option A) (d : A) : A := match o with Some x => x | None => d end.
Record common_are (k : kw) (now : Z) (type : str) (o : gobj) : Prop := {
  ca_type : getattr o $"grain_type" = Ok (PStr type);
  ca_source : forall u, k_src k = Some u -> getattr o $"source_id" = Ok (PUuid u) /\ getattr o $"src_id" = Ok (PUuid u);
  ca_flow : forall u, k_flow k = Some u -> getattr o $"flow_id" = Ok (PUuid u);
  ca_creation : getattr o $"creation_timestamp" = Ok (PTime (or_else (k_creation k) now));
  ca_origin : getattr o $"origin_timestamp" = Ok (PTime (or_else (k_origin k) (or_else (k_creation k) now)));
  ca_sync : getattr o $"sync_timestamp" = Ok (PTime (or_else (k_sync k) (or_else (k_origin k) (or_else (k_creation k) now))));
  ca_rate : forall n d, k_rate k = (n, d) -> 0 < d -> Z.gcd n d = 1 -> getattr o $"rate" = Ok (PFrac n d);
  ca_duration : forall n d, k_duration k = (n, d) -> 0 < d -> Z.gcd n d = 1 -> getattr o $"duration" = Ok (PFrac n d) }.
(** The payload: what was given, or zeros of the right size. *)
Definition payload_is (o : gobj) (a : darg) (size : Z) : Prop :=
  match a with
  | ABytes b => get_data o = Ok (Some b) /\ o_wait o = None
  | AWait => get_data o = Ok None /\ o_wait o = Some 0
  | ANone => 0 <= size /\ (exists b, get_data o = Ok (Some b) /\ zlen b = size /\ Forall (fun x => x = 0) b) /\ o_wait o = None
  end.
Definition attr_is (o : gobj) (n : str) (v : pv) : Prop := getattr o n = Ok v.
