(** What numpy video grains and their conversions should do. *)
From Verif Require Import Base CogEnums VideoLayout NpView.

(** A well-formed grain: the shape the constructor gives it and values in the range of its items. *)
Definition np_ok (g : ngrain) : Prop :=
  0 <= g_w g /\ 0 <= g_h g /\
  (exists g0, ng_new (g_fmt g) (g_w g) (g_h g) = Ok g0 /\ g_item g = g_item g0 /\ g_len g = g_len g0) /\
  (forall i, 0 <= i < g_len g -> 0 <= g_data g i < 2 ^ (8 * g_item g)).

(** The kinds of picture: colour model, sub-sampling of the second and third component, bits per sample. *)
Inductive model := MYuv | MRgb.
Record kind := mkKind { k_model : model; k_hs : Z; k_vs : Z; k_depth : Z }.

Definition yuv444 := mkKind MYuv 1 1.
Definition yuv422 := mkKind MYuv 2 1.
Definition yuv420 := mkKind MYuv 2 2.
Definition rgb444 := mkKind MRgb 1 1.

Definition kinds : list (Z * kind) :=
  [(U8_444, yuv444 8); (U8_422, yuv422 8); (UYVY, yuv422 8); (YUYV, yuv422 8); (U8_420, yuv420 8);
   (S16_444_10BIT, yuv444 10); (S16_422_10BIT, yuv422 10); (S16_420_10BIT, yuv420 10);
   (S16_444_12BIT, yuv444 12); (S16_422_12BIT, yuv422 12); (S16_420_12BIT, yuv420 12);
   (S16_444, yuv444 16); (S16_422, yuv422 16); (v216, yuv422 16); (S16_420, yuv420 16);
   (S32_444, yuv444 32); (S32_422, yuv422 32); (S32_420, yuv420 32);
   (U8_444_RGB, rgb444 8); (RGB, rgb444 8); (RGBx, rgb444 8); (xRGB, rgb444 8); (BGRx, rgb444 8); (xBGR, rgb444 8);
   (S16_444_10BIT_RGB, rgb444 10); (S16_444_12BIT_RGB, rgb444 12); (S16_444_RGB, rgb444 16); (S32_444_RGB, rgb444 32)].

Definition names (m : model) : list cname := match m with MYuv => [CY; CU; CV] | MRgb => [CR; CG; CB] end.
Definition comp_w (k : kind) (n : cname) (w : Z) : Z := match n with CU | CV => w / k_hs k | _ => w end.
Definition comp_h (k : kind) (n : cname) (h : Z) : Z := match n with CU | CV => h / k_vs k | _ => h end.

(** The sample of a component, read through the component array of that name. *)
Definition sample (g : ngrain) (n : cname) (x y : Z) : Z :=
  match ng_comp g n with Ok v => g_data g (v_addr v x y) | Err _ => -1 end.

(** Two grains show the same picture. *)
Definition same_picture (k : kind) (g g' : ngrain) : Prop :=
  g_w g = g_w g' /\ g_h g = g_h g' /\
  forall n x y, In n (names (k_model k)) -> 0 <= x < comp_w k n (g_w g) -> 0 <= y < comp_h k n (g_h g) -> sample g n x y = sample g' n x y.

(** A grain of one of the kinds; a sample of it; all its samples use no more bits than they should. *)
Definition has_kind (g : ngrain) (k : kind) : Prop := In (g_fmt g, k) kinds /\ np_ok g.
Definition in_comp (k : kind) (g : ngrain) (n : cname) (x y : Z) : Prop := 0 <= x < comp_w k n (g_w g) /\ 0 <= y < comp_h k n (g_h g).
Definition below (g : ngrain) (k : kind) : Prop := forall n x y, In n (names (k_model k)) -> in_comp k g n x y -> 0 <= sample g n x y < 2 ^ k_depth k.
Definition same_size (g g' : ngrain) : Prop := g_w g = g_w g' /\ g_h g = g_h g'.

(** The size has whole chroma samples. *)
Definition even_size (k : kind) (w h : Z) : Prop := w mod k_hs k = 0 /\ h mod k_vs k = 0.

(** The interleaved formats: the items of a group of [fst] pixels; an item holds the [snd]-th sample of the component in the
    group, or nothing. *)
Definition groups : list (Z * (Z * list (option (cname * Z)))) :=
  let p n := Some (n, 0) in
  [(UYVY, (2, [p CU; p CY; p CV; Some (CY, 1)])); (v216, (2, [p CU; p CY; p CV; Some (CY, 1)]));
   (YUYV, (2, [p CY; p CU; Some (CY, 1); p CV]));
   (RGB, (1, [p CR; p CG; p CB])); (RGBx, (1, [p CR; p CG; p CB; None])); (RGBA, (1, [p CR; p CG; p CB; None]));
   (xRGB, (1, [None; p CR; p CG; p CB])); (ARGB, (1, [None; p CR; p CG; p CB]));
   (BGRx, (1, [p CB; p CG; p CR; None])); (xBGR, (1, [None; p CB; p CG; p CR])); (ABGR, (1, [None; p CB; p CG; p CR]))].

(** The component that the item at [p] of the buffer of a picture of width [w] belongs to, and where. Chroma has one sample
    in a group; luma and colours have as many as pixels. A line is [w] pixels' worth of items; a chroma sample of a last, incomplete
    group does not exist. *)
Definition item_at (grp : Z * list (option (cname * Z))) (w p : Z) : option (cname * Z * Z) :=
  let '(pixels, slots) := grp in
  let line := w * zlen slots / pixels in
  let y := p / line in
  let k := p mod line in
  match nth_error slots (Z.to_nat (k mod zlen slots)) with
  | Some (Some (n, j)) =>
      let x := match n with CU | CV => k / zlen slots | _ => k / zlen slots * pixels + j end in
      if match n with CU | CV => x <? w / pixels | _ => true end then Some (n, x, y) else None
  | _ => None
  end.

(** The samples of the component arrays and the items of the buffer correspond one to one. *)
Definition laid_out (g : ngrain) (grp : Z * list (option (cname * Z))) : Prop :=
  (forall n v x y, ng_comp g n = Ok v -> 0 <= x < v_w v -> 0 <= y < v_h v -> 0 <= v_addr v x y < g_len g /\ item_at grp (g_w g) (v_addr v x y) = Some (n, x, y)) /\
  (forall n x y p, 0 <= p < g_len g -> item_at grp (g_w g) p = Some (n, x, y) ->
    exists v, ng_comp g n = Ok v /\ 0 <= x < v_w v /\ 0 <= y < v_h v /\ v_addr v x y = p).

(** A grain with given items, for examples. *)
Definition filled (f w h : Z) (d : Z -> Z) : res ngrain := rbind (ng_new f w h) (fun g => Ok (mkNg (g_fmt g) (g_w g) (g_h g) (g_item g) (g_len g) d)).
Definition line_of (g : ngrain) (n : cname) (y count : Z) : list Z := map (fun x => sample g n x y) (zrange count).
