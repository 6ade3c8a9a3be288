(** The peak signal to noise ratio of two grains: /repo/mediagrains/comparison/psnr.py 39-157, with the numpy grains it makes of plain
    ones (numpy/numpy_grains/VideoGrain.py 224-263, AudioGrain.py 111-150).

    Values are exact: [PvLog n d] is ten times the decimal logarithm of n/d. Rounding, overflow and underflow of doubles are not
    modelled. [max_val] is None or a whole number. Arrays that numpy's as_strided puts outside of the payload have no values that could
    be known: reading them is [EIndex] here. Negative sizes, and strides that are not a whole number of items, are not modelled. *)
From Coq Require Import String.
From Verif Require Import Base GsfPrim CogEnums VideoLayout PyValue GrainObj GrainCopy GrainGsf NpView NpAudio.
Local Open Scope list_scope.

Inductive pval := PvInf | PvNan | PvLog (n d : Z).
(** Numbers of arrays, as multiples of some unit. *)
Inductive num := Fin (z : Z) | Infinite (minus : bool) | NotANumber.

(** np.subtract and np.square in double precision, 46. *)
Definition n_sub (a b : num) : num :=
  match a, b with
  | Fin x, Fin y => Fin (x - y)
  | NotANumber, _ | _, NotANumber => NotANumber
  | Infinite s, Infinite t => if Bool.eqb s t then NotANumber else Infinite s
  | Infinite s, Fin _ => Infinite s
  | Fin _, Infinite t => Infinite (negb t)
  end.
Definition add_square (t d : num) : num :=
  match t, d with
  | Fin s, Fin x => Fin (s + x * x)
  | NotANumber, _ | _, NotANumber => NotANumber
  | _, _ => Infinite false
  end.
(** np.mean, 46, times the number of elements: nothing has no mean. *)
Definition square_sum (ds : list num) : num := match ds with [] => NotANumber | _ => fold_left add_square ds (Fin 0) end.
(** _compute_element_psnr, 49-61, of the differences of two arrays of multiples of 1/[unit]. math.log10(0) is a ValueError, None squared
    a TypeError. *)
Definition element_psnr (max : option Z) (unit : Z) (ds : list num) : res pval :=
  match square_sum ds with
  | Fin s =>
      if s =? 0 then Ok PvInf
      else match max with None => Err EType | Some m => if m =? 0 then Err EValue else Ok (PvLog (m * m * (unit * unit) * zlen ds) s) end
  | Infinite _ => match max with None => Err EType | Some _ => Err EValue end
  | NotANumber => match max with None => Err EType | Some _ => Ok PvNan end
  end.

(** ** Video. *)
Record nvideo := mkNv { nv_fmt : Z; nv_item : Z; nv_data : bytes; nv_views : list view }.
(** VideoGrain.COMPONENT, grains/VideoGrain.py 111-199. *)
Definition read_comp (v : pv) : res vcomp :=
  rbind (rbind (sub $"stride" v) as_count) (fun s => rbind (rbind (sub $"offset" v) as_count) (fun o => rbind (rbind (sub $"width" v) as_count) (fun w =>
  rbind (rbind (sub $"height" v) as_count) (fun h => rbind (rbind (sub $"length" v) as_count) (fun l => Ok (mkVc s o w h l)))))).
(** numpy_VideoGrain(grain=o), numpy VideoGrain.py 224-263: another grain with the same metadata and payload. Something else than a video
    grain is ignored, and nothing is known about the format of a grain made of nothing. ComponentDataList, 61-81, names three components. *)
Definition numpy_video (now : Z) (o : gobj) : res nvideo :=
  match o_class o with
  | KVideo =>
      rbind (get_data o) (fun d => rbind (init KVideo now (o_meta o) (arg_of_data d)) (fun n =>
      rbind (get_data n) (fun d => let d := match d with Some d => d | None => [] end in
      rbind (attr to_int $"cog_frame_format" n) (fun f => rbind (np_itemsize f) (fun item =>
      if negb (zlen d mod item =? 0) then Err EValue
      else rbind (rbind (components n) (map_res read_comp)) (fun cs =>
      if negb (forallb (fun c => vc_stride c mod item =? 0) cs) then Err EUnsupported
      else rbind (views_of f item cs) (fun vs =>
      match arrangement_of f with
      | OX => Ok (mkNv f item d vs)
      | _ => if zlen vs <? 3 then Err EIndex else Ok (mkNv f item d vs)
      end)))))))
  | _ => Err EUnsupported
  end.
(** The values of an array. *)
Definition nv_value (g : nvideo) (i : Z) : Z := le_dec (zfirst (nv_item g) (zskip (i * nv_item g) (nv_data g))).
Definition nv_array (g : nvideo) (v : view) : res arr :=
  if forallb (fun c => let i := v_addr v (fst c) (snd c) in (0 <=? i) && ((i + 1) * nv_item g <=? zlen (nv_data g))) (v_cells v)
  then Ok (v_read (nv_value g) v) else Err EIndex.
Definition a_cells (a : arr) : list Z := flat_map (fun y => map (fun x => a_at a x y) (zrange (a_w a))) (zrange (a_h a)).
Definition component_psnr (max : option Z) (ga gb : nvideo) (vs : view * view) : res pval :=
  rbind (nv_array ga (fst vs)) (fun x => rbind (nv_array gb (snd vs)) (fun y => rbind (a_map2 Z.sub x y) (fun d =>
  element_psnr max 1 (map Fin (a_cells d))))).
(** _compute_video_psnr, 107-135. *)
Definition video_psnr (now : Z) (max : option Z) (a b : gobj) : res (list pval) :=
  rbind (getattr a $"width") (fun wa => rbind (getattr b $"width") (fun wb =>
  if negb (py_eq wa wb) then Err EAttr else
  rbind (getattr a $"height") (fun ha => rbind (getattr b $"height") (fun hb =>
  if negb (py_eq ha hb) then Err EAttr else
  rbind (attr to_int $"cog_frame_format" a) (fun f =>
  if IS_COMPRESSED f then Err EUnsupported else
  rbind (numpy_video now a) (fun ga => rbind (numpy_video now b) (fun gb =>
  let max := match max with Some m => Some m | None => Some (2 ^ ACTIVE_BITS (nv_fmt ga) - 1) end in
  map_res (component_psnr max ga gb) (combine (nv_views ga) (nv_views gb))))))))).

(** ** Audio. *)
(** IEEE 754: [mant] bits of fraction, [exp] of exponent; the unit is the least number above zero. *)
Definition ieee (mant exp z : Z) : num :=
  let minus := negb (z / 2 ^ (mant + exp) =? 0) in
  let e := z / 2 ^ mant mod 2 ^ exp in
  let f := z mod 2 ^ mant in
  let sign := fun x => if minus then - x else x in
  if e =? 2 ^ exp - 1 then (if f =? 0 then Infinite minus else NotANumber)
  else Fin (sign (if e =? 0 then f else (2 ^ mant + f) * 2 ^ (e - 1))).
Definition ieee_unit (mant exp : Z) : Z := 2 ^ (2 ^ (exp - 1) - 2 + mant).
(** Items of arrays, with the types of numpy AudioGrain.py 29-45. *)
Definition twos (b : bytes) : Z := let z := le_dec b in if z <? 2 ^ (8 * zlen b - 1) then z else z - 2 ^ (8 * zlen b).
Definition audio_num (f : Z) (b : bytes) : num :=
  if AUDIO_IS_INT f then Fin (twos b) else if AUDIO_IS_FLOAT f then ieee 23 8 (le_dec b) else ieee 52 11 (le_dec b).
Definition audio_unit (f : Z) : Z := if AUDIO_IS_INT f then 1 else if AUDIO_IS_FLOAT f then ieee_unit 23 8 else ieee_unit 52 11.
(** numpy_AudioGrain(grain=o), numpy AudioGrain.py 111-150, and what becomes of the payload of [o], which it has in common with it.
    [rw]: the payload of [o] can be written. *)
Definition numpy_audio (now : Z) (rw : bool) (o : gobj) : gobj * res naudio :=
  let r :=
    match o_class o with
    | KAudio =>
        rbind (get_data o) (fun d => rbind (init KAudio now (o_meta o) (arg_of_data d)) (fun n =>
        rbind (get_data n) (fun d => let d := match d with Some d => d | None => [] end in
        rbind (attr to_int $"format" n) (fun f => rbind (attr as_count $"samples" n) (fun s => rbind (attr as_count $"channels" n) (fun c =>
        na_new rw f s c d))))))
    | _ => Err EUnsupported
    end in
  (match r with Ok g => mkO (o_class o) (o_meta o) (match o_data o with Some _ => Some (na_data g) | None => None end) (o_wait o) | Err _ => o end, r).
Definition na_array (g : naudio) (v : aview) : res (list num) :=
  map_res (fun i => match av_read (na_buffer g) v i with Some b => Ok (audio_num (na_fmt g) b) | None => Err EIndex end) (zrange (av_count v)).
(** Arrays of different lengths: one element stands for as many as needed. *)
Definition pair_up (x y : list num) : res (list (num * num)) :=
  if zlen x =? zlen y then Ok (combine x y)
  else match x, y with [u], _ => Ok (map (fun v => (u, v)) y) | _, [v] => Ok (map (fun u => (u, v)) x) | _, _ => Err EValue end.
Definition channel_psnr (max : option Z) (ga gb : naudio) (vs : aview * aview) : res pval :=
  rbind (na_array ga (fst vs)) (fun x => rbind (na_array gb (snd vs)) (fun y => rbind (pair_up x y) (fun l =>
  element_psnr max (audio_unit (na_fmt ga)) (map (fun uv => n_sub (fst uv) (snd uv)) l)))).
(** 89-98. *)
Definition audio_max (f : Z) : option Z :=
  if AUDIO_IS_FLOAT f || AUDIO_IS_DOUBLE f then Some 1
  else if AUDIO_DEPTH f =? 0 then Some (2 ^ 15)
  else if AUDIO_DEPTH f =? 4 then Some (2 ^ 31)
  else if AUDIO_DEPTH f =? 8 then Some (2 ^ 31) else None.
(** _compute_audio_psnr, 64-104. The grains afterwards, and the result; the two are different objects. *)
Definition audio_psnr (now : Z) (rwa rwb : bool) (max : option Z) (a b : gobj) : gobj * gobj * res (list pval) :=
  match rbind (getattr a $"channels") (fun ca => rbind (getattr b $"channels") (fun cb =>
        if negb (py_eq ca cb) then Err EAttr else
        rbind (getattr a $"samples") (fun sa => rbind (getattr b $"samples") (fun sb =>
        if negb (py_eq sa sb) then Err EAttr else
        rbind (attr to_int $"format" a) (fun fa => rbind (attr to_int $"format" b) (fun fb =>
        if negb (fa =? fb) then Err EUnsupported else if AUDIO_IS_COMPRESSED fa then Err EUnsupported else Ok tt)))))) with
  | Err e => (a, b, Err e)
  | Ok _ =>
      let (a, ga) := numpy_audio now rwa a in
      match ga with
      | Err e => (a, b, Err e)
      | Ok ga =>
          let (b, gb) := numpy_audio now rwb b in
          (a, b, rbind gb (fun gb =>
            let max := match max with Some m => Some m | None => audio_max (na_fmt ga) end in
            map_res (channel_psnr max ga gb) (combine (na_views ga) (na_views gb))))
      end
  end.

(** compute_psnr, 138-157. *)
Definition compute_psnr (now : Z) (rwa rwb : bool) (max : option Z) (a b : gobj) : gobj * gobj * res (list pval) :=
  match rbind (getattr a $"grain_type") (fun ta => rbind (getattr b $"grain_type") (fun tb => Ok (ta, tb))) with
  | Err e => (a, b, Err e)
  | Ok (ta, tb) =>
      if negb (py_eq ta tb) then (a, b, Err EAttr)
      else if type_is ta $"video" then (a, b, video_psnr now max a b)
      else if type_is ta $"audio" then audio_psnr now rwa rwb max a b
      else (a, b, Err EAttr)
  end.
