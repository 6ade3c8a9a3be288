(** What the strategies for grains should give: the grains asked for, whole, and such that tests with them mean something. *)
From Coq Require Import String.
From Verif Require Import Base PyValue CogEnums GrainObj EventSpec Compare CompareSpec Tools Strategies.
Local Open Scope list_scope.

(** ** The arguments. *)
(** The values that an argument allows, if it says anything. *)
Definition wanted (a : sarg) (v : pv) : Prop := match a with Value w => v = w | From s => can_draw s v | _ => False end.
(** It does say something, and only values that mean something as they are. *)
Definition sensible (n : str) (a : sarg) : Prop :=
  (exists v, wanted a v) /\
  forall v, wanted a v -> v <> PNone /\ pv_ok v /\ (n = $"cog_frame_layout" -> exists z, v = PInt z /\ member frame_layouts z = true).
(** An entry of an event with the same path and the same values, but for those that are None. *)
Definition same_entry (v w : pv) : Prop :=
  exists d e path pre post, v = PDict d /\ w = PDict e /\ dget $"path" d = Some path /\ dget $"pre" d = Some pre /\ dget $"post" d = Some post /\
    dget $"path" e = Some path /\ dget $"pre" e = unless_none pre /\ dget $"post" e = unless_none post.
(** The grain shows the value. *)
Definition shows_value (o : gobj) (n : str) (v : pv) : Prop :=
  if zlist_eqb n $"unit_offsets" then exists l, v = PList l /\ offsets o = Ok l
  else if zlist_eqb n $"event_data" then exists l es, v = PList l /\ event_entries o = Ok es /\ Forall2 same_entry l es
  else exists w, getattr o n = Ok w /\ py_eq v w = true.
Definition honoured (o : gobj) (n : str) (a : sarg) : Prop := exists v, wanted a v /\ shows_value o n v.

(** ** Without arguments. *)
Definition class_of (t : str) : gclass :=
  if zlist_eqb t $"audio" then KAudio else if zlist_eqb t $"coded_audio" then KCodedAudio else if zlist_eqb t $"video" then KVideo
  else if zlist_eqb t $"coded_video" then KCodedVideo else if zlist_eqb t $"event" then KEvent else KGrain.
(** "The data element of these grains will always be all 0s": as many as there should be. *)
Definition zeros_only (o : gobj) : Prop :=
  match o_class o with
  | KEvent => True
  | KGrain => get_data o = Ok None
  | _ => exists b, get_data o = Ok (Some b) /\ Forall (fun x => x = 0) b /\ expected_length o = Ok (zlen b)
  end.
(** As many bytes as there should be. *)
Definition filled (o : gobj) : Prop :=
  match o_class o with
  | KEvent => True
  | KGrain => get_data o = Ok None
  | _ => exists b, get_data o = Ok (Some b) /\ bytes_ok b /\ expected_length o = Ok (zlen b)
  end.

(** ** What is drawn without arguments. *)
Definition has (o : gobj) (n : str) (P : pv -> Prop) : Prop := exists v, getattr o n = Ok v /\ P v.
Definition int_where (P : Z -> Prop) (v : pv) : Prop := exists z, v = PInt z /\ P z.
Definition some_uuid (v : pv) : Prop := exists u, v = PUuid u /\ 0 <= u < 2 ^ 128.
Definition some_time (v : pv) : Prop := exists t, v = PTime t /\ Z.abs t < 2 ^ 48 * 1000000000.
Definition compressed (f : Z) : bool := Z.testbit f 9.
Definition common_range (t : str) : list (str * (pv -> Prop)) :=
  [($"source_id", some_uuid); ($"flow_id", some_uuid); ($"origin_timestamp", some_time); ($"sync_timestamp", some_time); ($"creation_timestamp", some_time)] ++
  (if zlist_eqb t $"empty" then [($"rate", eq (PFrac 0 1)); ($"duration", eq (PFrac 0 1))] else [($"rate", eq (PFrac 25 1)); ($"duration", eq (PFrac 1 25))]).
Definition audio_range (coded : bool) : list (str * (pv -> Prop)) :=
  [($"cog_audio_format", int_where (fun f => member audio_formats f = true /\ compressed f = coded /\ f <> 0xffffffff));
   ($"samples", int_where (fun z => 1 <= z <= 16)); ($"channels", int_where (fun z => 1 <= z <= 16)); ($"sample_rate", int_where (fun z => z = 48000 \/ z = 44100))].
Definition layout_range : str * (pv -> Prop) := ($"cog_frame_layout", int_where (fun z => member frame_layouts z = true /\ z <> 0xfffffffe)).
Definition own_range (t : str) : list (str * (pv -> Prop)) :=
  if zlist_eqb t $"audio" then audio_range false
  else if zlist_eqb t $"coded_audio" then audio_range true ++ [($"priming", eq (PInt 0)); ($"remainder", eq (PInt 0))]
  else if zlist_eqb t $"video" then
    [($"cog_frame_format", int_where (fun f => member frame_formats f = true /\ compressed f = false)); ($"width", eq (PInt 240)); ($"height", eq (PInt 135)); layout_range]
  else if zlist_eqb t $"coded_video" then
    [($"cog_frame_format", int_where (fun f => member frame_formats f = true /\ compressed f = true /\ f <> 0xffffffff)); ($"origin_width", eq (PInt 240)); ($"origin_height", eq (PInt 135));
     ($"coded_width", eq (PInt 240)); ($"coded_height", eq (PInt 135)); layout_range; ($"is_key_frame", fun v => exists b, v = PBool b);
     ($"temporal_offset", int_where (fun z => 0 <= z <= 16))]
  else [].
(** The lists: at most 16 offsets of units, or entries with a path and two values. *)
Definition lists_range (t : str) (o : gobj) : Prop :=
  if zlist_eqb t $"coded_video" then exists l, offsets o = Ok (map PInt l) /\ zlen l <= 16 /\ Forall (fun z => 0 <= z <= 256) l
  else if zlist_eqb t $"event" then exists es, event_entries o = Ok es /\ Forall (fun e => exists d path pre post, e = PDict d /\
    d = [($"path", PStr path); ($"pre", pre); ($"post", post)] /\ pre <> PNone /\ post <> PNone) es
  else True.
Definition as_documented (t : str) (o : gobj) : Prop :=
  o_class o = class_of t /\ zeros_only o /\ Forall (fun np => has o (fst np) (snd np)) (common_range t ++ own_range t) /\ lists_range t o.

(** ** With data. *)
Definition some_drawn (o : gobj) : Prop := exists t now, In t grain_types /\ can_be_with_data t now (Ok o).
(** Times before the epoch do not fit a file of version 7. *)
Definition fits_version (major : Z) (o : gobj) : Prop :=
  (major = 7 \/ major = 8 \/ major = 9) /\ (major = 7 -> forall n t, In n [$"origin_timestamp"; $"sync_timestamp"] -> getattr o n = Ok (PTime t) -> 0 <= t).
Definition float_samples (o : gobj) : Prop := exists f, getattr o $"cog_audio_format" = Ok (PInt f) /\ (audio_kind f = Singles \/ audio_kind f = Doubles).
(** Samples of 24 bits: the bytes of a payload that do not fill a group of three are not looked at. *)
Definition packed24 (o : gobj) : Prop := exists f, getattr o $"cog_audio_format" = Ok (PInt f) /\ In f [4; 5; 6].

(** ** The texts of events. *)
(** "urn:", a namespace identifier of 1 to 32 characters, a colon and a text; a newline can follow. *)
Definition is_urn (s : str) : Prop :=
  exists a nid rest nl, s = $"urn:" ++ a :: nid ++ 58 :: rest ++ nl /\ lower a || digit a = true /\ Forall (fun c => lower c || digit c || (c =? 45) = true) nid /\ zlen nid <= 31 /\
    Forall (fun c => lower c || digit c || among $"()+,-.:=@;$_!*'%/?#" c = true) rest /\ rest <> [] /\ (nl = [] \/ nl = [10]).
(** A word, and further words and slashes. *)
Definition is_topic (s : str) : Prop := exists a rest nl, s = a :: rest ++ nl /\ word a = true /\ Forall (fun c => word c || (c =? 47) = true) rest /\ (nl = [] \/ nl = [10]).
Definition is_time_text (s : str) : Prop :=
  exists sign secs nanos, s = sign ++ secs ++ 58 :: nanos /\ (sign = [] \/ sign = [45]) /\ Forall (fun c => digit c = true) secs /\ secs <> [] /\ Forall (fun c => digit c = true) nanos /\ 1 <= zlen nanos <= 9.
(** A value of an event: a number, a truth value, a fraction in lowest terms or a time. *)
Definition some_value (v : pv) : Prop :=
  (exists z, v = PInt z) \/ (exists b, v = PBool b) \/
  (exists n d, v = PDict [($"numerator", PInt n); ($"denominator", PInt d)] /\ 0 < d /\ Z.gcd n d = 1) \/ (exists s, v = PStr s /\ is_time_text s).
Definition some_entry (e : pv) : Prop := exists path pre post, e = PDict [($"path", PStr path); ($"pre", pre); ($"post", post)] /\ is_topic path /\ some_value pre /\ some_value post.
Definition event_of (o : gobj) (kind topic : str) (entries : list pv) : Prop :=
  o_class o = KEvent /\ getattr o $"event_type" = Ok (PStr kind) /\ getattr o $"topic" = Ok (PStr topic) /\ event_entries o = Ok entries.
