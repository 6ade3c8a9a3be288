(** Grain objects: the constructors and the attributes of the classes in /repo/mediagrains/grains. A grain is its class, its
    metadata dictionary, its payload and whether a payload is still awaited. The dictionary of the caller and that of the
    grain are one object in Python; here a constructor returns the dictionary as it is afterwards. A value of the wrong type
    raises TypeError; the messages are not modelled. *)
From Coq Require Import String.
From Verif Require Import Base PyValue Json Utf8 CogEnums VideoLayout.
Local Open Scope list_scope.
Notation "$ x" := (s2z x%string) (at level 1, only parsing).

Inductive gclass := KGrain | KVideo | KCodedVideo | KAudio | KCodedAudio | KEvent.
(** [o_wait]: a payload coroutine is there, with the length set for it. *)
Record gobj := mkO { o_class : gclass; o_meta : dict; o_data : option bytes; o_wait : option Z }.
(** The [data] argument: None, bytes, or an awaitable. *)
Inductive darg := ANone | ABytes (b : bytes) | AWait.

(** [m[k]] changed by f. *)
Definition with_key (k : str) (f : dict -> res dict) (m : dict) : res dict :=
  rbind (ditem k m) (fun v => rbind (as_dict v) (fun d => rbind (f d) (fun d => Ok (dset k (PDict d) m)))).

Definition frac_dict (n d : Z) : pv := PDict [($"numerator", PInt n); ($"denominator", PInt d)].

(** Grain.__init__, Grain.py 292-315: the defaults. [now] is [Timestamp.get_time()]. *)
Definition or_none (o : option pv) : pv := match o with Some v => v | None => PNone end.
Definition default_fields (now : Z) (g : dict) : dict :=
  let g := ddefault $"grain_type" (PStr $"empty") g in
  let g := ddefault $"creation_timestamp" (PTimeStr now) g in
  let g := ddefault $"origin_timestamp" (or_none (dget $"creation_timestamp" g)) g in
  let g := ddefault $"sync_timestamp" (or_none (dget $"origin_timestamp" g)) g in
  let g := ddefault $"rate" (frac_dict 0 1) g in
  let g := ddefault $"duration" (frac_dict 0 1) g in
  let g := ddefault $"source_id" (PUuidStr 0) g in
  ddefault $"flow_id" (PUuidStr 0) g.
(** Grain.py 317-337: objects become text. *)
Definition text_of_id (v : pv) : res pv := match v with PUuid u => Ok (PUuidStr u) | _ => Ok v end.
(** _stringify_timestamp_input, Grain.py 125-134. *)
Definition text_of_time (v : pv) : res pv := match v with PTime t => Ok (PTimeStr t) | _ => if is_text v then Ok v else Err EValue end.
Definition dict_of_frac (v : pv) : res pv := match v with PFrac n d => Ok (frac_dict n d) | _ => Ok v end.
(** [d[k] = f(d[k])]. *)
Definition conv (k : str) (f : pv -> res pv) (d : dict) : res dict := rbind (ditem k d) (fun v => rbind (f v) (fun v => Ok (dset k v d))).
Definition text_fields (g : dict) : res dict :=
  rbind (conv $"source_id" text_of_id g) (fun g =>
  rbind (conv $"flow_id" text_of_id g) (fun g =>
  rbind (conv $"origin_timestamp" text_of_time g) (fun g =>
  rbind (conv $"sync_timestamp" text_of_time g) (fun g =>
  rbind (conv $"creation_timestamp" text_of_time g) (fun g =>
  rbind (conv $"rate" dict_of_frac g) (fun g =>
  conv $"duration" dict_of_frac g)))))).
(** Grain.__init__, Grain.py 290-339: the metadata. *)
Definition grain_meta (now : Z) (m : dict) : res dict :=
  let m := ddefault $"@_ns" (PStr $"urn:x-ipstudio:ns:0.1") m in
  let m := ddefault $"grain" (PDict []) m in
  with_key $"grain" (fun g => text_fields (default_fields now g)) m.
(** Grain.py 279-288: the payload. *)
Definition grain_obj (c : gclass) (m : dict) (a : darg) : gobj :=
  match a with ANone => mkO c m None None | ABytes b => mkO c m (Some b) None | AWait => mkO c m None (Some 0) end.
Definition new_grain (now : Z) (m : dict) (a : darg) : res gobj := rbind (grain_meta now m) (fun m => Ok (grain_obj KGrain m a)).
(** [if data is None: data = bytearray(size)]; a negative size is a ValueError. *)
Definition or_zeros (size : Z) (a : darg) : res darg :=
  match a with ANone => if size <? 0 then Err EValue else Ok (ABytes (zeros (Z.to_nat size))) | _ => Ok a end.
Definition int_field (k : str) : dict -> res dict := conv k (fun v => rbind (to_int v) (fun z => Ok (PInt z))).

(** VideoGrain.__init__, VideoGrain.py 335-337 and 426-447; [comps] and [size] are what components_for_format and
    size_for_format give for the keyword arguments. *)
Definition fill_components (comps : pv) (g : dict) : res dict :=
  if dhas $"cog_frame" g then
    with_key $"cog_frame" (fun f =>
      match dget $"components" f with
      | None => Ok (dset $"components" comps f)
      | Some v => rbind (py_len v) (fun n => if n =? 0 then Ok (dset $"components" comps f) else Ok f)
      end) g
  else Ok g.
Definition empty_frame : pv :=
  PDict [($"format", PInt UNKNOWN_FRAME); ($"width", PInt 0); ($"height", PInt 0); ($"layout", PInt 0xfffffffe); ($"extension", PInt 0);
         ($"components", PList [])].
Definition video_fields (g : dict) : res dict :=
  let g := dset $"grain_type" (PStr $"video") g in
  let g := ddefault $"cog_frame" empty_frame g in
  with_key $"cog_frame" (fun f => rbind (int_field $"format" f) (int_field $"layout")) g.
Definition video_init (comps : pv) (size : Z) (now : Z) (m : dict) (a : darg) : res gobj :=
  rbind (or_zeros size a) (fun a =>
  rbind (with_key $"grain" (fill_components comps) m) (fun m =>
  rbind (grain_meta now m) (fun m =>
  rbind (with_key $"grain" video_fields m) (fun m => Ok (grain_obj KVideo m a))))).

(** CodedVideoGrain.__init__, CodedVideoGrain.py 182-210; [length] is len(data) or 0. *)
Definition coded_frame_fields (f : dict) : res dict :=
  let f := ddefault $"format" (PInt UNKNOWN_FRAME) f in
  let f := ddefault $"layout" (PInt 0xfffffffe) f in
  let f := ddefault $"origin_width" (PInt 0) f in
  let f := ddefault $"origin_height" (PInt 0) f in
  let f := ddefault $"coded_width" (PInt 0) f in
  let f := ddefault $"coded_height" (PInt 0) f in
  let f := ddefault $"length" (PInt 0) f in
  rbind (int_field $"format" f) (int_field $"layout").
Definition section_fields (kind section : str) (fields : dict -> res dict) (g : dict) : res dict :=
  let g := dset $"grain_type" (PStr kind) g in
  let g := ddefault section (PDict []) g in
  with_key section fields g.
(** [if "grain" in meta and "cog_coded_frame" in meta["grain"] and unit_offsets is not None]: 185-186. *)
Definition set_offsets (offsets : option (list pv)) (m : dict) : res dict :=
  match offsets with
  | None => Ok m
  | Some l =>
      match dget $"grain" m with
      | None => Ok m
      | Some v => rbind (as_dict v) (fun g =>
          if dhas $"cog_coded_frame" g
          then with_key $"grain" (with_key $"cog_coded_frame" (fun f => Ok (dset $"unit_offsets" (PList l) f))) m else Ok m)
      end
  end.
Definition coded_video_init (length : Z) (offsets : option (list pv)) (now : Z) (m : dict) (a : darg) : res gobj :=
  rbind (or_zeros length a) (fun a =>
  rbind (set_offsets offsets m) (fun m =>
  rbind (grain_meta now m) (fun m =>
  rbind (with_key $"grain" (section_fields $"coded_video" $"cog_coded_frame" coded_frame_fields) m) (fun m => Ok (grain_obj KCodedVideo m a))))).

(** AudioGrain.__init__, AudioGrain.py 155-174. *)
Definition audio_fields (f : dict) : res dict :=
  let f := ddefault $"format" (PInt 0xffffffff) f in
  let f := ddefault $"samples" (PInt 0) f in
  let f := ddefault $"channels" (PInt 0) f in
  let f := ddefault $"sample_rate" (PInt 0) f in
  int_field $"format" f.
Definition audio_init (size : Z) (now : Z) (m : dict) (a : darg) : res gobj :=
  rbind (or_zeros size a) (fun a =>
  rbind (grain_meta now m) (fun m =>
  rbind (with_key $"grain" (section_fields $"audio" $"cog_audio" audio_fields) m) (fun m => Ok (grain_obj KAudio m a)))).

(** CodedAudioGrain.__init__, CodedAudioGrain.py 157-179. *)
Definition coded_audio_fields (f : dict) : res dict :=
  let f := ddefault $"format" (PInt 0xffffffff) f in
  let f := ddefault $"channels" (PInt 0) f in
  let f := ddefault $"samples" (PInt 0) f in
  let f := ddefault $"priming" (PInt 0) f in
  let f := ddefault $"remainder" (PInt 0) f in
  let f := ddefault $"sample_rate" (PInt 48000) f in
  int_field $"format" f.
Definition coded_audio_init (length : Z) (now : Z) (m : dict) (a : darg) : res gobj :=
  rbind (or_zeros length a) (fun a =>
  rbind (grain_meta now m) (fun m =>
  rbind (with_key $"grain" (section_fields $"coded_audio" $"cog_coded_audio" coded_audio_fields) m) (fun m => Ok (grain_obj KCodedAudio m a)))).

(** EventGrain.data (setter), EventGrain.py 187-205: what is stored from one entry, and the payload that results. *)
Definition read_entry (v : pv) : res pv :=
  rbind (as_dict v) (fun d =>
  rbind (ditem $"path" d) (fun p =>
  let e := [($"path", p)] in
  let e := match dget $"pre" d with Some x => dset $"pre" x e | None => e end in
  let e := match dget $"post" d with Some x => dset $"post" x e | None => e end in
  Ok (PDict e))).
Fixpoint read_entries (l : list pv) : list pv * option err :=
  match l with
  | [] => ([], None)
  | v :: l => match read_entry v with Ok e => let '(r, x) := read_entries l in (e :: r, x) | Err x => ([], Some x) end
  end.
(** [w in s] for two texts; [w in v] for a list. *)
Fixpoint starts_with (w s : str) : bool := match w, s with [], _ => true | x :: w, y :: s => (x =? y) && starts_with w s | _, [] => false end.
Fixpoint has_word (w s : str) : bool := starts_with w s || match s with [] => false | _ :: s => has_word w s end.
Definition in_list (w : str) (l : list pv) : bool := existsb (fun v => py_eq v (PStr w)) l.
(** [for x in v]. *)
Definition py_iter (v : pv) : res (list pv) :=
  match v with
  | PList l => Ok l | PDict d => Ok (map (fun kv => PStr (fst kv)) d) | PStr s => Ok (map (fun c => PStr [c]) s)
  | PUuidStr _ | PTimeStr _ => Ok [PStr []]    (* some characters *)
  | _ => Err EType
  end.
Definition parse_payload (b : bytes) : res dict :=
  rbind (match utf8_dec b with Some s => Ok s | None => Err EUnicode end) (fun s =>
  rbind (loads s) (fun v =>
  match v with
  | PDict p => if dhas $"type" p && dhas $"topic" p && dhas $"data" p then Ok p else Err EValue
  | PList l => if in_list $"type" l && in_list $"topic" l && in_list $"data" l then Err EType else Err EValue
  | PStr t => if has_word $"type" t && has_word $"topic" t && has_word $"data" t then Err EType else Err EValue
  | _ => Err EType
  end)).
(** The setter on the event_payload dictionary: what it leaves there, and the exception if there is one. *)
Definition set_payload (b : bytes) (d : dict) : dict * option err :=
  match parse_payload b with
  | Err e => (d, Some e)
  | Ok p =>
      let d := dset $"type" (or_none (dget $"type" p)) d in
      let d := dset $"topic" (or_none (dget $"topic" p)) d in
      match py_iter (or_none (dget $"data" p)) with
      | Err e => (dset $"data" (PList []) d, Some e)
      | Ok l => let '(r, x) := read_entries l in (dset $"data" (PList r) d, x)
      end
  end.
Definition raising {A} (r : A * option err) : res A := match r with (a, None) => Ok a | (_, Some e) => Err e end.
(** EventGrain.__init__, EventGrain.py 154-176. *)
Definition empty_payload : pv := PDict [($"type", PStr []); ($"topic", PStr []); ($"data", PList [])].
Definition event_fields (a : darg) (g : dict) : res dict :=
  let g := dset $"grain_type" (PStr $"event") g in
  let g := ddefault $"event_payload" empty_payload g in
  with_key $"event_payload" (fun d =>
    rbind (match a with ABytes b => raising (set_payload b d) | _ => Ok d end) (fun d =>
    let d := ddefault $"type" (PStr []) d in
    let d := ddefault $"topic" (PStr []) d in
    Ok (ddefault $"data" (PList []) d))) g.
Definition event_init (now : Z) (m : dict) (a : darg) : res gobj :=
  rbind (grain_meta now m) (fun m =>
  rbind (with_key $"grain" (event_fields a) m) (fun m =>
  Ok (mkO KEvent m None (match a with AWait => Some 0 | _ => None end)))).

(** GrainFactory with metadata, Grain.py 111-122. The class is chosen by the type. *)
Definition type_is (v : pv) (s : str) : bool := py_eq v (PStr s).
Definition class_for (m : dict) : res gclass :=
  match dget $"grain" m with
  | None => Ok KGrain
  | Some v => rbind (as_dict v) (fun g =>
      match dget $"grain_type" g with
      | None => Ok KGrain
      | Some t =>
          Ok (if type_is t $"video" then KVideo else if type_is t $"audio" then KAudio else if type_is t $"coded_video" then KCodedVideo
              else if type_is t $"coded_audio" then KCodedAudio else if type_is t $"event" || type_is t $"data" then KEvent else KGrain)
      end)
  end.
(** The length argument of the coded classes: len(data) if there is data. *)
Definition arg_length (a : darg) : Z := match a with ABytes b => zlen b | _ => 0 end.
(** Each class given metadata: the keyword arguments are at their defaults, so a missing payload is empty. *)
Definition init (c : gclass) (now : Z) (m : dict) (a : darg) : res gobj :=
  match c with
  | KGrain => new_grain now m a
  | KVideo => video_init (PList []) (size_for_format UNKNOWN_FRAME 1920 1080) now m a
  | KCodedVideo => coded_video_init (arg_length a) None now m a
  | KAudio => audio_init (size_for_audio_format 0xffffffff 0 0) now m a
  | KCodedAudio => coded_audio_init (arg_length a) now m a
  | KEvent => event_init now m a
  end.
Definition GrainFactory (now : Z) (m : dict) (a : darg) : res gobj := rbind (class_for m) (fun c => init c now m a).

(** ** The constructors with keyword arguments (meta=None). *)
Record kw := mkKw { k_src : option Z; k_flow : option Z; k_origin : option Z; k_sync : option Z; k_creation : option Z;
                    k_rate : Z * Z; k_duration : Z * Z }.
(** [str(src_id)] of None is the text "None". *)
Definition id_text (o : option Z) : pv := match o with Some u => PUuidStr u | None => PStr $"None" end.
Definition kw_grain (kind : str) (now : Z) (k : kw) (more : dict) : dict :=
  let creation := match k_creation k with Some t => t | None => now end in
  let origin := match k_origin k with Some t => t | None => creation end in
  let sync := match k_sync k with Some t => t | None => origin end in
  [($"@_ns", PStr $"urn:x-ipstudio:ns:0.1");
   ($"grain", PDict ([($"grain_type", PStr kind); ($"source_id", id_text (k_src k)); ($"flow_id", id_text (k_flow k));
                      ($"origin_timestamp", PTimeStr origin); ($"sync_timestamp", PTimeStr sync); ($"creation_timestamp", PTimeStr creation);
                      ($"rate", frac_dict (fst (k_rate k)) (snd (k_rate k))); ($"duration", frac_dict (fst (k_duration k)) (snd (k_duration k)))] ++ more))].
(** VideoGrain.py 263-301, with components_for_format 339-424. *)
Definition comp_dict (c : vcomp) : pv :=
  PDict [($"stride", PInt (vc_stride c)); ($"offset", PInt (vc_offset c)); ($"width", PInt (vc_width c)); ($"height", PInt (vc_height c)); ($"length", PInt (vc_length c))].
Definition kw_video (now : Z) (k : kw) (fmt w h layout : Z) (a : darg) : res gobj :=
  video_init (PList (map comp_dict (components_for_format fmt w h))) (size_for_format fmt w h) now
    (kw_grain $"video" now k [($"cog_frame", PDict [($"format", PInt fmt); ($"width", PInt w); ($"height", PInt h); ($"layout", PInt layout);
                                                    ($"extension", PInt 0); ($"components", PList [])])]) a.
(** CodedVideoGrain.py 127-180. *)
Definition opt_field (k : str) (o : option pv) : dict := match o with Some v => [(k, v)] | None => [] end.
Definition kw_coded_video (now : Z) (k : kw) (fmt ow oh : Z) (cw ch : option Z) (key_frame : option bool) (temporal : option Z) (len : option Z)
    (layout : Z) (offsets : option (list Z)) (a : darg) : res gobj :=
  coded_video_init (match len with Some n => n | None => arg_length a end) (match offsets with Some l => Some (map PInt l) | None => None end) now
    (kw_grain $"coded_video" now k [($"cog_coded_frame", PDict ([($"format", PInt fmt); ($"origin_width", PInt ow); ($"origin_height", PInt oh);
       ($"coded_width", PInt (match cw with Some z => z | None => ow end)); ($"coded_height", PInt (match ch with Some z => z | None => oh end));
       ($"layout", PInt layout)] ++ opt_field $"is_key_frame" (option_map PBool key_frame) ++ opt_field $"temporal_offset" (option_map PInt temporal)))]) a.
(** AudioGrain.py 117-153. *)
Definition kw_audio (now : Z) (k : kw) (fmt samples channels rate : Z) (a : darg) : res gobj :=
  audio_init (size_for_audio_format fmt channels samples) now
    (kw_grain $"audio" now k [($"cog_audio", PDict [($"format", PInt fmt); ($"samples", PInt samples); ($"channels", PInt channels); ($"sample_rate", PInt rate)])]) a.
(** CodedAudioGrain.py 112-155. *)
Definition kw_coded_audio (now : Z) (k : kw) (fmt samples channels priming remainder rate : Z) (len : option Z) (a : darg) : res gobj :=
  coded_audio_init (match len with Some n => n | None => arg_length a end) now
    (kw_grain $"coded_audio" now k [($"cog_coded_audio", PDict [($"format", PInt fmt); ($"samples", PInt samples); ($"channels", PInt channels);
       ($"priming", PInt priming); ($"remainder", PInt remainder); ($"sample_rate", PInt rate)])]) a.
(** EventGrain.py 116-152. *)
Definition kw_event (now : Z) (k : kw) (kind topic : str) (a : darg) : res gobj :=
  event_init now (kw_grain $"event" now k [($"event_payload", PDict [($"type", PStr kind); ($"topic", PStr topic); ($"data", PList [])])]) a.
(** GrainFactory without metadata, Grain.py 73-110: both identifiers are needed, and the payload argument is dropped. *)
Definition kw_factory (now : Z) (k : kw) (a : darg) : res gobj :=
  match k_src k, k_flow k with Some _, Some _ => new_grain now (kw_grain $"empty" now k []) ANone | _, _ => Err EAttr end.

(** ** The attributes. *)
Definition field (k : str) (o : gobj) : res pv := rbind (ditem $"grain" (o_meta o)) (sub k).
Definition in_section (s k : str) (o : gobj) : res pv := rbind (field s o) (sub k).
(** [UUID(text)], [Timestamp.from_tai_sec_nsec(text)] and the reading of a rate. *)
Definition to_uuid (v : pv) : res pv := match v with PUuidStr u => Ok (PUuid u) | _ => if is_text v then Err EValue else Err EAttr end.
Definition to_time (v : pv) : res pv := match v with PTimeStr t => Ok (PTime t) | _ => if is_text v then Err EValue else Err EType end.
Definition to_frac (v : pv) : res pv :=
  rbind (sub $"numerator" v) (fun n => rbind (sub $"denominator" v) (mk_frac n)).
Definition to_member (l : list Z) (v : pv) : res pv :=
  match as_q v with Some (z, 1) => rbind (to_enum l z) (fun z => Ok (PInt z)) | _ => Err EValue end.
(** [d.get(k)]. *)
Definition maybe (s k : str) (o : gobj) : res pv :=
  rbind (field s o) (fun v => rbind (as_dict v) (fun d => Ok (or_none (dget k d)))).
(** An aspect ratio or None: VideoGrain.py 509-515, 523-529, CodedVideoGrain.py 304-312, 320-328. *)
Definition maybe_frac (s k : str) (o : gobj) : res pv :=
  rbind (field s o) (fun v => rbind (as_dict v) (fun d => match dget k d with Some f => to_frac f | None => Ok PNone end)).

(** EventGrain.data, EventGrain.py 181-185. *)
Definition event_entries (o : gobj) : res (list pv) := rbind (in_section $"event_payload" $"data" o) as_list.
Definition event_json (o : gobj) : res bytes :=
  rbind (in_section $"event_payload" $"type" o) (fun t =>
  rbind (in_section $"event_payload" $"topic" o) (fun tp =>
  rbind (event_entries o) (fun l =>
  rbind (fold_right (fun v r => rbind (as_dict v) (fun _ => r)) (Ok tt) l) (fun _ =>
  rbind (dumps (PDict [($"type", t); ($"topic", tp); ($"data", PList l)])) (fun s => Ok (utf8_enc s)))))).
Definition get_data (o : gobj) : res (option bytes) :=
  match o_class o with KEvent => rbind (event_json o) (fun b => Ok (Some b)) | _ => Ok (o_data o) end.
(** Grain.length, Grain.py 681-690. *)
Definition get_length (o : gobj) : res pv :=
  rbind (get_data o) (fun d =>
  Ok (PInt (match d with Some b => zlen b | None => match o_wait o with Some n => n | None => 0 end end))).

(** The properties by name. *)
Definition common_attrs : list (str * (gobj -> res pv)) :=
  [($"grain_type", field $"grain_type");
   ($"source_id", fun o => rbind (field $"source_id" o) to_uuid); ($"src_id", fun o => rbind (field $"source_id" o) to_uuid);
   ($"flow_id", fun o => rbind (field $"flow_id" o) to_uuid);
   ($"origin_timestamp", fun o => rbind (field $"origin_timestamp" o) to_time);
   ($"sync_timestamp", fun o => rbind (field $"sync_timestamp" o) to_time);
   ($"creation_timestamp", fun o => rbind (field $"creation_timestamp" o) to_time);
   ($"rate", fun o => rbind (field $"rate" o) to_frac); ($"duration", fun o => rbind (field $"duration" o) to_frac);
   ($"length", get_length)].
Definition enum_attr (s k : str) (l : list Z) (o : gobj) : res pv := rbind (in_section s k o) (to_member l).
Definition class_attrs (c : gclass) : list (str * (gobj -> res pv)) :=
  match c with
  | KGrain => []
  | KVideo =>
      let s := $"cog_frame" in
      [($"format", enum_attr s $"format" frame_formats); ($"cog_frame_format", enum_attr s $"format" frame_formats);
       ($"width", in_section s $"width"); ($"height", in_section s $"height");
       ($"layout", enum_attr s $"layout" frame_layouts); ($"cog_frame_layout", enum_attr s $"layout" frame_layouts);
       ($"extension", in_section s $"extension");
       ($"source_aspect_ratio", maybe_frac s $"source_aspect_ratio"); ($"pixel_aspect_ratio", maybe_frac s $"pixel_aspect_ratio")]
  | KCodedVideo =>
      let s := $"cog_coded_frame" in
      [($"format", enum_attr s $"format" frame_formats); ($"cog_frame_format", enum_attr s $"format" frame_formats);
       ($"layout", enum_attr s $"layout" frame_layouts); ($"cog_frame_layout", enum_attr s $"layout" frame_layouts);
       ($"origin_width", in_section s $"origin_width"); ($"origin_height", in_section s $"origin_height");
       ($"coded_width", in_section s $"coded_width"); ($"coded_height", in_section s $"coded_height");
       ($"is_key_frame", maybe s $"is_key_frame"); ($"temporal_offset", maybe s $"temporal_offset");
       ($"source_aspect_ratio", maybe_frac s $"source_aspect_ratio"); ($"pixel_aspect_ratio", maybe_frac s $"pixel_aspect_ratio")]
  | KAudio =>
      let s := $"cog_audio" in
      [($"format", enum_attr s $"format" audio_formats); ($"cog_audio_format", enum_attr s $"format" audio_formats);
       ($"samples", in_section s $"samples"); ($"channels", in_section s $"channels"); ($"sample_rate", in_section s $"sample_rate")]
  | KCodedAudio =>
      let s := $"cog_coded_audio" in
      [($"format", enum_attr s $"format" audio_formats); ($"cog_audio_format", enum_attr s $"format" audio_formats);
       ($"samples", in_section s $"samples"); ($"channels", in_section s $"channels"); ($"sample_rate", in_section s $"sample_rate");
       ($"priming", in_section s $"priming"); ($"remainder", in_section s $"remainder")]
  | KEvent => [($"event_type", in_section $"event_payload" $"type"); ($"topic", in_section $"event_payload" $"topic")]
  end.
Definition getattr (o : gobj) (name : str) : res pv :=
  match dget name (class_attrs (o_class o) ++ common_attrs) with Some f => f o | None => Err EAttr end.

(** ** The lists. *)
(** Grain.TIMELABEL.__init__, Grain.py 551-566: an access fills in what is missing. *)
Definition fill_label (d : dict) : res dict :=
  let d := ddefault $"tag" (PStr []) d in
  let d := ddefault $"timelabel" (PDict []) d in
  with_key $"timelabel" (fun t =>
    let t := ddefault $"frames_since_midnight" (PInt 0) t in
    let t := ddefault $"frame_rate_numerator" (PInt 0) t in
    let t := ddefault $"frame_rate_denominator" (PInt 1) t in
    Ok (ddefault $"drop_frame" (PBool false) t)) d.
Fixpoint map_res {A B} (f : A -> res B) (l : list A) : res (list B) :=
  match l with [] => Ok [] | x :: l => rbind (f x) (fun y => rbind (map_res f l) (fun r => Ok (y :: r))) end.
(** The elements of [timelabels], Grain.py 633-639, 670-673: no key is the empty list. *)
Definition labels (o : gobj) : res (list dict) :=
  rbind (ditem $"grain" (o_meta o)) (fun v => rbind (as_dict v) (fun g =>
  match dget $"timelabels" g with
  | None => Ok []
  | Some v => rbind (as_list v) (map_res (fun v => rbind (as_dict v) fill_label))
  end)).
(** The elements of [unit_offsets], CodedVideoGrain.py 346-350, 380-384. *)
Definition offsets (o : gobj) : res (list pv) :=
  rbind (field $"cog_coded_frame" o) (fun v => rbind (as_dict v) (fun f =>
  match dget $"unit_offsets" f with None => Ok [] | Some v => as_list v end)).
