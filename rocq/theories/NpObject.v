(** Numpy video grains as objects: /repo/mediagrains/numpy/numpy_grains/VideoGrain.py 224-399.

    An object is a [gobj] of class [KVideo]; its payload is the bytes of the array [_data]. [uuid.uuid5] is a parameter. The conversion
    functions are those of NpConvert.v, which look at the components that the constructor gives to a format and a size, not at
    components that were changed. That the metadata of [VideoGrain(grain=g)] is the dictionary of [g] itself is not seen here (it is as
    with shallow copies, GrainCopy.v). Exceptions: NotImplementedError is [EUnsupported], ValueError [EValue]. *)
From Coq Require Import String.
From Verif Require Import Base GsfPrim CogEnums VideoLayout PyValue GrainObj GrainCopy GrainGsf NpView NpConvert Psnr.
Local Open Scope list_scope.

(** np.frombuffer and the arrays of the components, 257-263. *)
Definition np_arrays (n : gobj) : res nvideo :=
  rbind (get_data n) (fun d => let d := match d with Some d => d | None => [] end in
  rbind (attr to_int $"cog_frame_format" n) (fun f => rbind (np_itemsize f) (fun item =>
  if negb (zlen d mod item =? 0) then Err EValue
  else rbind (rbind (components n) (map_res read_comp)) (fun cs =>
  if negb (forallb (fun c => vc_stride c mod item =? 0) cs) then Err EUnsupported
  else rbind (views_of f item cs) (fun vs =>
  match arrangement_of f with
  | OX => Ok (mkNv f item d vs)
  | _ => if zlen vs <? 3 then Err EIndex else Ok (mkNv f item d vs)
  end))))).
Definition with_arrays (n : gobj) : res gobj := rbind (np_arrays n) (fun _ => Ok n).

(** VideoGrain(grain=o), 240-243, of a video grain; and __deepcopy__, 307-309. *)
Definition np_of (now : Z) (o : gobj) : res gobj :=
  match o_class o with
  | KVideo => rbind (get_data o) (fun d => rbind (init KVideo now (o_meta o) (arg_of_data d)) with_arrays)
  | _ => Err EUnsupported
  end.
(** VideoGrain(src_id=..., ...), 244-263: the arrays of a payload that is awaited are made later. *)
Definition np_kw (now : Z) (k : kw) (f w h layout : Z) (a : darg) : res gobj :=
  rbind (kw_video now k f w h layout a) (fun n => match a with AWait => Ok n | _ => with_arrays n end).
(** The setter of [data], 283-294. The grain afterwards, and what was raised. np.frombuffer(None) is a TypeError. *)
Definition np_set_data (a : darg) (o : gobj) : gobj * res unit :=
  match a with
  | AWait => (mkO (o_class o) (o_meta o) None (Some (match o_wait o with Some n => n | None => 0 end)), Ok tt)
  | ANone => (mkO (o_class o) (o_meta o) (o_data o) None, Err EType)
  | ABytes d =>
      let o := mkO (o_class o) (o_meta o) (o_data o) None in
      match rbind (attr to_int $"cog_frame_format" o) np_itemsize with
      | Err e => (o, Err e)
      | Ok item =>
          if negb (zlen d mod item =? 0) then (o, Err EValue)
          else let o := mkO (o_class o) (o_meta o) (Some d) None in (o, rbind (np_arrays o) (fun _ => Ok tt))
      end
  end.
(** __await__, 317-322: the payload that the awaitable gives is assigned. *)
Definition np_await (fetched : option bytes) (o : gobj) : gobj * res unit :=
  match o_data o, o_wait o with None, Some _ => np_set_data (arg_of_data fetched) o | _, _ => (o, Ok tt) end.
(** length, 265-269, and __bytes__, 299-302. *)
Definition np_length (o : gobj) : Z := match o_data o with Some d => zlen d | None => 0 end.
Definition np_bytes_of (o : gobj) : bytes := match o_data o with Some d => d | None => [] end.

(** The arrays of a grain as the conversions see them; a grain whose payload is awaited has none. *)
Definition as_size (v : pv) : res Z := match v with PInt z => Ok z | _ => Err EType end.
Definition np_seen (o : gobj) : res ngrain :=
  rbind (get_data o) (fun d =>
  match d with
  | None => Err EAttr
  | Some _ =>
      rbind (np_arrays o) (fun v => rbind (attr as_size $"width" o) (fun w => rbind (attr as_size $"height" o) (fun h =>
      Ok (mkNg (nv_fmt v) w h (nv_item v) (zlen (nv_data v) / nv_item v) (nv_value v)))))
  end).
Definition np_items (g : ngrain) : bytes := flat_map (fun i => enc_uint (Z.to_nat (g_item g)) (g_data g i)) (zrange (g_len g)).

(** _similar_grain, 362-373, with flow_id_for_converted_flow, 359-360: [u5 flow fmt] is uuid5 of the flow and "FORMAT_CONVERSION: fmt". *)
Definition as_uuid (v : pv) : res Z := match v with PUuid u => Ok u | _ => Err EAttr end.
Definition np_similar (u5 : Z -> Z -> Z) (now : Z) (o : gobj) (fmt : Z) : res gobj :=
  rbind (attr as_uuid $"source_id" o) (fun src => rbind (attr as_uuid $"flow_id" o) (fun flow =>
  rbind (attr as_time $"origin_timestamp" o) (fun origin => rbind (attr as_time $"sync_timestamp" o) (fun sync =>
  rbind (attr as_size $"width" o) (fun w => rbind (attr as_size $"height" o) (fun h =>
  rbind (attr as_frac $"rate" o) (fun rate => rbind (attr as_frac $"duration" o) (fun duration =>
  rbind (attr to_int $"cog_frame_layout" o) (fun layout =>
  np_kw now (mkKw (Some src) (Some (u5 flow fmt)) (Some origin) (Some sync) None rate duration) fmt w h layout ANone))))))))).
(** convert, 375-387: the function writes to the arrays of the new grain, which are those of [ng_new] ([NpConvert.convert]). *)
Definition np_convert (u5 : Z -> Z -> Z) (now : Z) (fuel : nat) (noise : oracle) (o : gobj) (fmt : Z) : res gobj :=
  rbind (attr to_int $"cog_frame_format" o) (fun f =>
  if f =? fmt then np_of now o
  else rbind (np_similar u5 now o fmt) (fun n => rbind (np_seen o) (fun g => rbind (convert fuel conversions noise g fmt) (fun g' =>
       Ok (mkO (o_class n) (o_meta n) (Some (np_items g')) None))))).
(** asformat, 389-399: whether the result is the grain itself, and the result. *)
Definition np_asformat (u5 : Z -> Z -> Z) (now : Z) (fuel : nat) (noise : oracle) (o : gobj) (fmt : Z) : res (bool * gobj) :=
  rbind (attr to_int $"cog_frame_format" o) (fun f =>
  if f =? fmt then Ok (true, o) else rbind (np_convert u5 now fuel noise o fmt) (fun n => Ok (false, n))).
(** Conversions one after the other. *)
Fixpoint np_converts (u5 : Z -> Z -> Z) (now : Z) (fuel : nat) (noise : oracle) (o : gobj) (fmts : list Z) : res gobj :=
  match fmts with [] => Ok o | f :: fmts => rbind (np_convert u5 now fuel noise o f) (fun o => np_converts u5 now fuel noise o fmts) end.
