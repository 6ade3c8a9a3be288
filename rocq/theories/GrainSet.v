(** Assigning the attributes of grains: the property setters of /repo/mediagrains/grains (Grain.py 398-528, VideoGrain.py 449-535,
    CodedVideoGrain.py 212-334, AudioGrain.py 179-217, CodedAudioGrain.py 184-238, EventGrain.py 210-224). A property is written
    through the metadata dictionary; what raises leaves the grain as it was. Lists are in Lists.v, event data in Event.v. *)
From Coq Require Import String.
From Verif Require Import Base PyValue GrainObj.
Local Open Scope list_scope.

Definition with_meta (m : dict) (o : gobj) : gobj := mkO (o_class o) m (o_data o) (o_wait o).
(** [self.meta['grain'][k] = v] and [self.meta['grain'][s][k] = v]. *)
Definition put_field (k : str) (v : pv) (o : gobj) : res gobj :=
  rbind (with_key $"grain" (fun g => Ok (dset k v g)) (o_meta o)) (fun m => Ok (with_meta m o)).
Definition put_in (s k : str) (v : pv) (o : gobj) : res gobj :=
  rbind (with_key $"grain" (with_key s (fun d => Ok (dset k v d))) (o_meta o)) (fun m => Ok (with_meta m o)).
(** [try: del self.meta['grain'][s][k]; except KeyError: pass]. *)
Definition drop_in (s k : str) (o : gobj) : res gobj :=
  match rbind (with_key $"grain" (with_key s (fun d => rbind (ditem k d) (fun _ => Ok (ddel k d)))) (o_meta o)) (fun m => Ok (with_meta m o)) with
  | Err EKey => Ok o
  | r => r
  end.

(** [str(v)] of an identifier; other objects have a text too, which is not modelled. *)
Definition str_of (v : pv) : res pv :=
  match v with PUuid u => Ok (PUuidStr u) | PNone => Ok (PStr $"None") | _ => if is_text v then Ok v else Err EUnsupported end.
(** [Fraction(v)] as a dictionary; fractions written as text are not modelled. *)
Definition frac_of (v : pv) : res pv := rbind (mk_frac v (PInt 1)) dict_of_frac.
Definition int_of (v : pv) : res pv := rbind (to_int v) (fun z => Ok (PInt z)).

Definition setter := pv -> gobj -> res gobj.
Definition field_setter (k : str) (f : pv -> res pv) : setter := fun v o => rbind (f v) (fun w => put_field k w o).
Definition part_setter (s k : str) (f : pv -> res pv) : setter := fun v o => rbind (f v) (fun w => put_in s k w o).
(** None takes the key away: CodedVideoGrain.py 280-288, 294-302. *)
Definition maybe_setter (s k : str) (f : pv -> res pv) : setter := fun v o =>
  match v with PNone => drop_in s k o | _ => rbind (f v) (fun w => put_in s k w o) end.

(** Grain.py 411-528. *)
Definition common_setters : list (str * setter) :=
  [($"grain_type", field_setter $"grain_type" Ok);
   ($"source_id", field_setter $"source_id" str_of); ($"src_id", field_setter $"source_id" str_of); ($"flow_id", field_setter $"flow_id" str_of);
   ($"origin_timestamp", field_setter $"origin_timestamp" text_of_time); ($"sync_timestamp", field_setter $"sync_timestamp" text_of_time);
   ($"creation_timestamp", field_setter $"creation_timestamp" text_of_time);
   ($"rate", field_setter $"rate" frac_of); ($"duration", field_setter $"duration" frac_of)].
Definition class_setters (c : gclass) : list (str * setter) :=
  match c with
  | KGrain => []
  | KVideo =>
      let s := $"cog_frame" in
      [($"format", part_setter s $"format" int_of); ($"cog_frame_format", part_setter s $"format" int_of);
       ($"width", part_setter s $"width" Ok); ($"height", part_setter s $"height" Ok);
       ($"layout", part_setter s $"layout" int_of); ($"cog_frame_layout", part_setter s $"layout" int_of);
       ($"extension", part_setter s $"extension" Ok);
       ($"source_aspect_ratio", part_setter s $"source_aspect_ratio" frac_of); ($"pixel_aspect_ratio", part_setter s $"pixel_aspect_ratio" frac_of)]
  | KCodedVideo =>
      let s := $"cog_coded_frame" in
      [($"format", part_setter s $"format" int_of); ($"cog_frame_format", part_setter s $"format" int_of);
       ($"layout", part_setter s $"layout" int_of); ($"cog_frame_layout", part_setter s $"layout" int_of);
       ($"origin_width", part_setter s $"origin_width" Ok); ($"origin_height", part_setter s $"origin_height" Ok);
       ($"coded_width", part_setter s $"coded_width" Ok); ($"coded_height", part_setter s $"coded_height" Ok);
       ($"is_key_frame", maybe_setter s $"is_key_frame" (fun v => Ok (PBool (truthy v)))); ($"temporal_offset", maybe_setter s $"temporal_offset" Ok);
       ($"source_aspect_ratio", part_setter s $"source_aspect_ratio" frac_of); ($"pixel_aspect_ratio", part_setter s $"pixel_aspect_ratio" frac_of)]
  | KAudio =>
      let s := $"cog_audio" in
      [($"format", part_setter s $"format" int_of); ($"cog_audio_format", part_setter s $"format" int_of);
       ($"samples", part_setter s $"samples" int_of); ($"channels", part_setter s $"channels" int_of); ($"sample_rate", part_setter s $"sample_rate" int_of)]
  | KCodedAudio =>
      let s := $"cog_coded_audio" in
      [($"format", part_setter s $"format" int_of); ($"cog_audio_format", part_setter s $"format" int_of);
       ($"samples", part_setter s $"samples" Ok); ($"channels", part_setter s $"channels" Ok); ($"sample_rate", part_setter s $"sample_rate" Ok);
       ($"priming", part_setter s $"priming" Ok); ($"remainder", part_setter s $"remainder" Ok)]
  | KEvent => [($"event_type", part_setter $"event_payload" $"type" Ok); ($"topic", part_setter $"event_payload" $"topic" Ok)]
  end.
(** [grain.name = v] for these names. Any other name is outside the model. *)
Definition set_attr (name : str) (v : pv) (o : gobj) : res gobj :=
  match dget name (class_setters (o_class o) ++ common_setters) with Some f => f v o | None => Err EUnsupported end.
(** One assignment after the other; an exception is caught. *)
Fixpoint set_all (l : list (str * pv)) (o : gobj) : gobj * list (res unit) :=
  match l with
  | [] => (o, [])
  | (n, v) :: l =>
      match set_attr n v o with
      | Ok o => let '(o, rs) := set_all l o in (o, Ok tt :: rs)
      | Err e => let '(o, rs) := set_all l o in (o, Err e :: rs)
      end
  end.

(** [grain.data = v], Grain.py 402-409, and EventGrain.py 187-205: an event's payload is parsed; what an exception leaves half
    done is C48's subject (set_payload), here it is dropped. An awaitable keeps the length set for the one before; that the
    length also outlives a payload in between is not modelled. *)
Definition set_data (a : darg) (o : gobj) : res gobj :=
  match o_class o with
  | KEvent =>
      match a with
      | ABytes b => rbind (with_key $"grain" (with_key $"event_payload" (fun d => raising (set_payload b d))) (o_meta o)) (fun m => Ok (with_meta m o))
      | _ => Err EAttr
      end
  | c => Ok (match a with ANone => mkO c (o_meta o) None None | ABytes b => mkO c (o_meta o) (Some b) None | AWait => mkO c (o_meta o) None (Some (match o_wait o with Some n => n | None => 0 end)) end)
  end.
(** [grain.length = n], Grain.py 692-697. *)
Definition set_length (n : Z) (o : gobj) : res gobj :=
  rbind (get_data o) (fun d =>
  match d, o_wait o with None, Some _ => Ok (mkO (o_class o) (o_meta o) None (Some n)) | _, _ => Err EAttr end).
