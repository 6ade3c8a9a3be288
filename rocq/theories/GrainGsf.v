(** Grain objects written to and read from GSF: what the encoder reads from a grain object (/repo/mediagrains/gsf.py 2262-2448),
    the metadata dictionary the decoder makes (gsf.py 886-1030) and the grain objects made of it (gsf.py 1164-1213, 1310-1339).
    The order in which unreadable attributes are noticed is not modelled. The names of GsfDecode that GrainObj also uses are
    qualified. *)
From Coq Require Import String.
From Verif Require Import Base GsfPrim GsfDecode CogEnums GsfEncode GsfFileSpec PyValue GrainObj.
Local Open Scope list_scope.

(** [uuid.bytes] and [UUID(bytes=b)]: 16 bytes, most significant first. A UUID is a number of 128 bits. *)
Definition is_uuid (u : Z) : bool := (0 <=? u) && (u <? 340282366920938463463374607431768211456).
Definition uuid_bytes (u : Z) : bytes := rev (enc_uint 16 u).
Definition uuid_value (b : bytes) : Z := le_dec (rev b).

(** ** What the encoder reads. *)
Definition as_id (v : pv) : res bytes := match v with PUuid u => if is_uuid u then Ok (uuid_bytes u) else Err EValue | _ => Err EAttr end.
Definition as_time (v : pv) : res Z := match v with PTime t => Ok t | _ => Err EAttr end.
Definition as_frac (v : pv) : res rat := match v with PFrac n d => Ok (n, d) | _ => Err EAttr end.
(** [None] or a fraction: gsf.py 2364-2371. *)
Definition as_ratio (v : pv) : res (option rat) := match v with PNone => Ok None | _ => rbind (as_frac v) (fun r => Ok (Some r)) end.
(** The argument of _encode_uint, gsf.py 1525-1530: [val & 0xFF] is for integers and booleans. *)
Definition as_count (v : pv) : res Z := match v with PInt z => Ok z | PBool b => Ok (Z.b2z b) | _ => Err EType end.
(** [int(v) if v is not None], gsf.py 2423-2424. Key frame flags other than 0 and 1 are not modelled. *)
Definition as_flag (v : pv) : res (option bool) :=
  match v with
  | PNone => Ok None | PBool b => Ok (Some b) | PInt z => if z =? 0 then Ok (Some false) else if z =? 1 then Ok (Some true) else Err EUnsupported
  | _ => Err EType
  end.
Definition as_int_or_none (v : pv) : res (option Z) := match v with PNone => Ok None | _ => rbind (to_int v) (fun z => Ok (Some z)) end.

Definition attr {A} (f : pv -> res A) (n : str) (o : gobj) : res A := rbind (getattr o n) f.
(** A time label, gsf.py 2294-2301. *)
Definition read_label (d : dict) : res til :=
  rbind (rbind (ditem $"tag" d) (fun v => match v with PStr s => Ok s | _ => Err EAttr end)) (fun tag =>
  rbind (ditem $"timelabel" d) (fun t =>
  rbind (rbind (sub $"frames_since_midnight" t) as_count) (fun c =>
  rbind (rbind (sub $"frame_rate_numerator" t) as_count) (fun n =>
  rbind (rbind (sub $"frame_rate_denominator" t) as_count) (fun m =>
  rbind (sub $"drop_frame" t) (fun d => Ok (mkTil tag c n m (truthy d)))))))).
(** A component, gsf.py 2380-2383. Its offset is not read; 0 stands for it. *)
Definition read_comp (v : pv) : res comp :=
  rbind (rbind (sub $"width" v) as_count) (fun w =>
  rbind (rbind (sub $"height" v) as_count) (fun h =>
  rbind (rbind (sub $"stride" v) as_count) (fun s =>
  rbind (rbind (sub $"length" v) as_count) (fun l => Ok (mkComp w h s 0 l))))).
(** The lists are attributes of one class each: VideoGrain.py 201-246, CodedVideoGrain.py 336-396. *)
Definition components (o : gobj) : res (list pv) :=
  match o_class o with KVideo => rbind (in_section $"cog_frame" $"components" o) as_list | _ => Err EAttr end.
Definition unit_offsets (o : gobj) : res (list pv) := match o_class o with KCodedVideo => offsets o | _ => Err EAttr end.
(** _encode_vghd_for_grain, gsf.py 2354-2385. *)
Definition read_video (o : gobj) : res vmeta :=
  rbind (attr to_int $"cog_frame_format" o) (fun fmt => rbind (attr to_int $"cog_frame_layout" o) (fun lay =>
  rbind (attr to_int $"width" o) (fun w => rbind (attr to_int $"height" o) (fun h => rbind (attr to_int $"extension" o) (fun x =>
  rbind (attr as_ratio $"source_aspect_ratio" o) (fun sar => rbind (attr as_ratio $"pixel_aspect_ratio" o) (fun par =>
  rbind (rbind (components o) (map_res read_comp)) (fun cs => Ok (mkV fmt lay w h x sar par cs))))))))).
(** _encode_cghd_for_grain, gsf.py 2413-2434. *)
Definition read_coded (o : gobj) : res cmeta :=
  rbind (attr to_int $"cog_frame_format" o) (fun fmt => rbind (attr to_int $"cog_frame_layout" o) (fun lay =>
  rbind (attr to_int $"origin_width" o) (fun ow => rbind (attr to_int $"origin_height" o) (fun oh =>
  rbind (attr to_int $"coded_width" o) (fun cw => rbind (attr to_int $"coded_height" o) (fun ch =>
  rbind (attr as_flag $"is_key_frame" o) (fun k => rbind (attr as_int_or_none $"temporal_offset" o) (fun t =>
  rbind (rbind (unit_offsets o) (map_res as_count)) (fun u => Ok (mkC fmt lay ow oh cw ch k t (Some u))))))))))).
(** _encode_aghd_for_grain, gsf.py 2398-2405. *)
Definition read_audio (o : gobj) : res ameta :=
  rbind (attr to_int $"cog_audio_format" o) (fun fmt => rbind (attr to_int $"channels" o) (fun c =>
  rbind (attr to_int $"samples" o) (fun s => rbind (attr to_int $"sample_rate" o) (fun r => Ok (mkA fmt c s r))))).
(** _encode_cahd_for_grain, gsf.py 2439-2448. *)
Definition read_coded_audio (o : gobj) : res cameta :=
  rbind (attr to_int $"cog_audio_format" o) (fun fmt => rbind (attr to_int $"channels" o) (fun c => rbind (attr to_int $"samples" o) (fun s =>
  rbind (attr to_int $"priming" o) (fun p => rbind (attr to_int $"remainder" o) (fun m => rbind (attr to_int $"sample_rate" o) (fun r => Ok (mkCA fmt c s p m r))))))).
(** The dispatch on the type, gsf.py 2303-2314. *)
Definition read_body (o : gobj) : res gbody :=
  rbind (getattr o $"grain_type") (fun t =>
  if type_is t $"video" then rbind (read_video o) (fun v => Ok (BVideo v))
  else if type_is t $"coded_video" then rbind (read_coded o) (fun c => Ok (BCoded c))
  else if type_is t $"audio" then rbind (read_audio o) (fun a => Ok (BAudio a))
  else if type_is t $"coded_audio" then rbind (read_coded_audio o) (fun a => Ok (BCAudio a))
  else if type_is t $"event" then Ok BEvent
  else if type_is t $"empty" then Ok BEmpty else Err EEncode).
(** encode_grain, gsf.py 2262-2325. *)
Definition read_grain (o : gobj) : res grain :=
  rbind (attr as_id $"source_id" o) (fun src => rbind (attr as_id $"flow_id" o) (fun flow =>
  rbind (attr as_time $"origin_timestamp" o) (fun t => rbind (attr as_time $"sync_timestamp" o) (fun s =>
  rbind (attr as_frac $"rate" o) (fun r => rbind (attr as_frac $"duration" o) (fun d =>
  rbind (rbind (labels o) (map_res read_label)) (fun ls => rbind (read_body o) (fun b =>
  rbind (attr to_int $"length" o) (fun n => rbind (get_data o) (fun x => Ok (mkGrain src flow t s r d ls b n x))))))))))).

(** ** What the decoder makes. *)
Definition frac_pv (r : rat) : pv := PFrac (fst r) (snd r).
(** _sync_decode_tils, gsf.py 886-907. *)
Definition til_dict (t : til) : dict :=
  [($"tag", PStr (tl_tag t));
   ($"timelabel", PDict [($"frames_since_midnight", PInt (tl_count t)); ($"frame_rate_numerator", PInt (tl_num t));
                         ($"frame_rate_denominator", PInt (tl_den t)); ($"drop_frame", PBool (tl_drop t))])].
Definition opt_entry {A} (k : str) (f : A -> pv) (x : option A) : dict := match x with Some x => [(k, f x)] | None => [] end.
Definition ratio_pv (r : rat) : pv := PDict [($"numerator", PInt (fst r)); ($"denominator", PInt (snd r))].
(** gsf.py 970-977. *)
Definition comp_pv (c : comp) : pv :=
  PDict [($"width", PInt (co_width c)); ($"height", PInt (co_height c)); ($"stride", PInt (co_stride c)); ($"length", PInt (co_length c)); ($"offset", PInt (co_offset c))].
(** gsf.py 936-977. *)
Definition video_dict (v : vmeta) : dict :=
  [($"format", PInt (v_format v)); ($"layout", PInt (v_layout v)); ($"width", PInt (v_width v)); ($"height", PInt (v_height v)); ($"extension", PInt (v_ext v))] ++
  opt_entry $"source_aspect_ratio" ratio_pv (v_sar v) ++ opt_entry $"pixel_aspect_ratio" ratio_pv (v_par v) ++ [($"components", PList (map comp_pv (v_comps v)))].
(** gsf.py 979-1007. *)
Definition coded_dict (c : cmeta) : dict :=
  [($"format", PInt (c_format c)); ($"layout", PInt (c_layout c)); ($"origin_width", PInt (c_ow c)); ($"origin_height", PInt (c_oh c));
   ($"coded_width", PInt (c_cw c)); ($"coded_height", PInt (c_ch c))] ++
  opt_entry $"is_key_frame" PBool (c_key c) ++ opt_entry $"temporal_offset" PInt (c_temporal c) ++
  opt_entry $"unit_offsets" (fun l => PList (map PInt l)) (c_units c).
(** gsf.py 1009-1015. *)
Definition audio_dict (a : ameta) : dict :=
  [($"format", PInt (a_format a)); ($"channels", PInt (a_channels a)); ($"samples", PInt (a_samples a)); ($"sample_rate", PInt (a_rate a))].
(** gsf.py 1017-1025. *)
Definition coded_audio_dict (a : cameta) : dict :=
  [($"format", PInt (ca_format a)); ($"channels", PInt (ca_channels a)); ($"samples", PInt (ca_samples a)); ($"priming", PInt (ca_priming a));
   ($"remainder", PInt (ca_remainder a)); ($"sample_rate", PInt (ca_rate a))].
Definition type_entry (t : gtype) : dict :=
  match t with
  | TEmpty => [] | TVideo => [($"grain_type", PStr $"video")] | TCoded => [($"grain_type", PStr $"coded_video")]
  | TAudio => [($"grain_type", PStr $"audio")] | TCAudio => [($"grain_type", PStr $"coded_audio")] | TEvent => [($"grain_type", PStr $"event")]
  end.
(** _sync_decode_gbhd, gsf.py 909-1030; the order of the keys is that of a file made by the encoder. *)
Definition meta_dict (m : gmeta) : dict :=
  [($"grain", PDict (
     [($"source_id", PUuid (uuid_value (m_src m))); ($"flow_id", PUuid (uuid_value (m_flow m)));
      ($"origin_timestamp", PTime (m_origin m)); ($"sync_timestamp", PTime (m_sync m)); ($"rate", frac_pv (m_rate m)); ($"duration", frac_pv (m_dur m))] ++
     opt_entry $"timelabels" (fun l => PList (map (fun t => PDict (til_dict t)) l)) (m_tils m) ++ type_entry (m_type m) ++
     opt_entry $"cog_frame" (fun v => PDict (video_dict v)) (m_video m) ++ opt_entry $"cog_coded_frame" (fun c => PDict (coded_dict c)) (m_coded m) ++
     opt_entry $"cog_audio" (fun a => PDict (audio_dict a)) (m_audio m) ++ opt_entry $"cog_coded_audio" (fun a => PDict (coded_audio_dict a)) (m_caudio m)))].
(** The payload handed to the constructor; an IOBytes counts as the bytes it reads from [file]. *)
Definition payload_arg (file : bytes) (p : payload) : darg :=
  match p with
  | GsfDecode.PNone => ANone
  | PBytes b => ABytes b
  | PIOBytes pos len => ABytes (slice file pos len)
  | PLazy _ _ _ => AWait
  end.
(** [grain.length = n], Grain.py 692-697. *)
Definition set_length (n : Z) (o : gobj) : res gobj :=
  rbind (get_data o) (fun d => match d, o_wait o with None, Some _ => Ok (mkO (o_class o) (o_meta o) (o_data o) (Some n)) | _, _ => Err EAttr end).
(** gsf.py 1337 and 1206-1211. *)
Definition item_object (now : Z) (file : bytes) (i : item) : res gobj :=
  rbind (GrainFactory now (meta_dict (i_meta i)) (payload_arg file (i_data i))) (fun o =>
  match i_data i with PLazy _ len _ => set_length len o | _ => Ok o end).
(** [await grain], Grain.py 384-389, for a deferred payload while the session is open (gsf.py 1124-1139). *)
Definition awaited (file : bytes) (i : item) (o : gobj) : gobj :=
  match o_data o, o_wait o with None, Some n => mkO (o_class o) (o_meta o) (Some (loaded file (i_data i))) (Some n) | _, _ => o end.
