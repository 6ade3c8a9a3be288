(** The numpy view of video grains: /repo/mediagrains/numpy/numpy_grains/VideoGrain.py 25-263.

    The buffer of a grain is an array of unsigned integers of [g_item] bytes, read and written through strided views.
    A view is an address for each (x, y) (the arrays are transposed, so x comes first). Strides are counted in items:
    every stride the code uses is a whole number of items. numpy's own errors are ValueError (shapes that do not
    match), AttributeError ([EKey]: a component name the format does not have), NotImplementedError ([EUnsupported]). *)
From Verif Require Import Base CogEnums VideoLayout.

Definition zrange (n : Z) : list Z := map Z.of_nat (seq 0 (Z.to_nat n)).

(** A two-dimensional array of numbers, and a strided view of a buffer. *)
Record arr := mkArr { a_w : Z; a_h : Z; a_at : Z -> Z -> Z }.
Record view := mkView { v_base : Z; v_sx : Z; v_sy : Z; v_w : Z; v_h : Z }.

(** A numpy video grain. *)
Record ngrain := mkNg { g_fmt : Z; g_w : Z; g_h : Z; g_item : Z; g_len : Z; g_data : Z -> Z }.

Definition v_addr (v : view) (x y : Z) : Z := v_base v + y * v_sy v + x * v_sx v.
Definition v_cells (v : view) : list (Z * Z) := flat_map (fun y => map (fun x => (x, y)) (zrange (v_w v))) (zrange (v_h v)).
Definition v_read (d : Z -> Z) (v : view) : arr := mkArr (v_w v) (v_h v) (fun x y => d (v_addr v x y)).

(** [a[start::step]]: how many elements, and the sub-view along x and along y; [a[:n]]. *)
Definition slice_count (n start step : Z) : Z := if start <? n then (n - start + step - 1) / step else 0.
Definition v_slice_x (v : view) (start step : Z) : view :=
  mkView (v_base v + start * v_sx v) (v_sx v * step) (v_sy v) (slice_count (v_w v) start step) (v_h v).
Definition v_slice_y (v : view) (start step : Z) : view :=
  mkView (v_base v + start * v_sy v) (v_sx v) (v_sy v * step) (v_w v) (slice_count (v_h v) start step).
Definition v_first (v : view) (n : Z) : view := mkView (v_base v) (v_sx v) (v_sy v) (Z.min n (v_w v)) (v_h v).

(** Broadcasting one dimension: the lengths agree, or one is 1. *)
Definition bcast (n m : Z) : res Z := if n =? m then Ok n else if n =? 1 then Ok m else if m =? 1 then Ok n else Err EValue.
Definition bidx (n i : Z) : Z := if n =? 1 then 0 else i.
Definition a_map (f : Z -> Z) (a : arr) : arr := mkArr (a_w a) (a_h a) (fun x y => f (a_at a x y)).
Definition a_map2 (f : Z -> Z -> Z) (a b : arr) : res arr :=
  rbind (bcast (a_w a) (a_w b)) (fun w => rbind (bcast (a_h a) (a_h b)) (fun h =>
    Ok (mkArr w h (fun x y => f (a_at a (bidx (a_w a) x) (bidx (a_h a) y)) (a_at b (bidx (a_w b) x) (bidx (a_h b) y)))))).

(** Writing to a buffer one element after the other. *)
Definition upd (d : Z -> Z) (i v : Z) : Z -> Z := fun j => if j =? i then v else d j.
Definition upd_all (d : Z -> Z) (l : list (Z * Z)) : Z -> Z := fold_left (fun d iv => upd d (fst iv) (snd iv)) l d.

(** [view[...] = a]: the shape of [a] must be that of the view or have length 1 where it differs; the values are reduced to
    the unsigned type of the buffer. *)
Definition fits_dim (n m : Z) : bool := (n =? m) || (n =? 1).
Definition v_assign (bits : Z) (d : Z -> Z) (v : view) (a : arr) : res (Z -> Z) :=
  if fits_dim (a_w a) (v_w v) && fits_dim (a_h a) (v_h v) then
    Ok (upd_all d (map (fun c => (v_addr v (fst c) (snd c),
                                  a_at a (bidx (a_w a) (fst c)) (bidx (a_h a) (snd c)) mod 2 ^ bits)) (v_cells v)))
  else Err EValue.

(** _dtype_from_cogframeformat, 25-58: the bytes of an item. BGRA is not in the list (BGRx is there twice). *)
Definition np_bytes : list Z := [UYVY; YUYV; AYUV; RGB; RGBx; RGBA; BGRx; BGRx; ARGB; xRGB; ABGR; xBGR].
Definition np_itemsize (fmt : Z) : res Z :=
  if IS_PLANAR fmt then Ok (BYTES_PER_VALUE fmt)
  else if member np_bytes fmt then Ok 1
  else if fmt =? v216 then Ok 2
  else if fmt =? v210 then Ok 4
  else Err EUnsupported.

(** _component_arrangement_from_format, 84-107. *)
Inductive corder := OYUV | ORGB | OBGR | OX.
Definition arrangement_of (fmt : Z) : corder :=
  if IS_PLANAR fmt then (if IS_PLANAR_RGB fmt then ORGB else OYUV)
  else if member [UYVY; YUYV; v216; AYUV] fmt then OYUV
  else if member [RGB; RGBA; RGBx; ARGB; xRGB] fmt then ORGB
  else if member [BGRA; BGRx; xBGR; ABGR] fmt then OBGR
  else OX.

(** _component_arrays_for_interleaved_422 and _444_take_three, 110-141; [b0 b1 b2] are the starts of the three slices. *)
Definition views_422 (b0 b1 b2 : Z) (width height stride item : Z) : list view :=
  [mkView b0 (item * 2 / item) (stride / item) width height;
   mkView b1 (item * 4 / item) (stride / item) (width / 2) height;
   mkView b2 (item * 4 / item) (stride / item) (width / 2) height].
Definition views_444 (b0 b1 b2 : Z) (width height stride item n : Z) : list view :=
  [mkView b0 (item * n / item) (stride / item) width height;
   mkView b1 (item * n / item) (stride / item) width height;
   mkView b2 (item * n / item) (stride / item) width height].

(** _component_arrays_for_data_and_type, 144-216. *)
Definition views_of (fmt item : Z) (comps : list vcomp) : res (list view) :=
  if IS_PLANAR fmt then
    Ok (map (fun c => mkView (vc_offset c / item) 1 (vc_stride c / item) (vc_width c) (vc_height c)) comps)
  else
    match comps with
    | c :: _ =>
        let w := vc_width c in let h := vc_height c in let s := vc_stride c in
        if member [UYVY; v216] fmt then Ok (views_422 1 0 2 w h s item)
        else if fmt =? YUYV then Ok (views_422 0 1 3 w h s item)
        else if fmt =? RGB then Ok (views_444 0 1 2 w h s item 3)
        else if member [RGBx; RGBA; BGRx; BGRx] fmt then Ok (views_444 0 1 2 w h s item 4)
        else if member [ARGB; xRGB; ABGR; xBGR; AYUV] fmt then Ok (views_444 1 2 3 w h s item 4)
        else if fmt =? v210 then Ok []
        else Err EUnsupported
    | [] => if fmt =? v210 then Ok [] else Err EIndex
    end.

(** A new grain of a format and size (_similar_grain, 362-373, and __init__, 224-263): the bytes of [new_video] seen as
    items. np.frombuffer raises ValueError if the buffer is not a whole number of items. *)
Definition ng_new (fmt w h : Z) : res ngrain :=
  rbind (new_video fmt w h) (fun dc =>
  rbind (np_itemsize fmt) (fun item =>
  if negb (zlen (fst dc) mod item =? 0) then Err EValue
  else rbind (views_of fmt item (snd dc)) (fun _ => Ok (mkNg fmt w h item (zlen (fst dc) / item) (fun _ => 0))))).

(** component_data, and its elements by number and by name (ComponentDataList, 61-81). *)
Definition ng_views (g : ngrain) : res (list view) := views_of (g_fmt g) (g_item g) (components_for_format (g_fmt g) (g_w g) (g_h g)).
Definition ng_view (g : ngrain) (i : nat) : res view :=
  rbind (ng_views g) (fun l => match nth_error l i with Some v => Ok v | None => Err EIndex end).
Inductive cname := CY | CU | CV | CR | CG | CB.
Definition cindex (o : corder) (n : cname) : option nat :=
  match o, n with
  | OYUV, CY => Some 0%nat | OYUV, CU => Some 1%nat | OYUV, CV => Some 2%nat
  | ORGB, CR => Some 0%nat | ORGB, CG => Some 1%nat | ORGB, CB => Some 2%nat
  | OBGR, CB => Some 0%nat | OBGR, CG => Some 1%nat | OBGR, CR => Some 2%nat
  | _, _ => None
  end.
Definition ng_comp (g : ngrain) (n : cname) : res view :=
  match cindex (arrangement_of (g_fmt g)) n with Some i => ng_view g i | None => Err EKey end.

Definition ng_bits (g : ngrain) : Z := 8 * g_item g.
Definition ng_write (g : ngrain) (v : view) (a : arr) : res ngrain :=
  rbind (v_assign (ng_bits g) (g_data g) v a) (fun d => Ok (mkNg (g_fmt g) (g_w g) (g_h g) (g_item g) (g_len g) d)).
