(** Format conversions: /repo/mediagrains/numpy/convert.py and numpy_grains/VideoGrain.py 331-399.

    Two things numpy computes are parameters: the noise of up-conversions (npr.random_sample, already scaled and cast to an
    integer) and the double-precision matrix products of the colour space conversions (as the integer the unsafe cast makes
    of them, before the clip). *)
From Verif Require Import Base CogEnums VideoLayout NpView.

(** [o_noise fmt i x y] is (random * (1 << n)).astype(...) for component [i] of an up-conversion from [fmt];
    [o_matrix k a b c] the truncated value of the k-th product (0-2: Y U V from R G B; 3-5: R G B from Y U V). *)
Record oracle := mkOracle { o_noise : Z -> Z -> Z -> Z -> Z; o_matrix : Z -> Z -> Z -> Z -> Z }.

Definition res_fold {A B} (f : A -> B -> res A) (l : list B) (a : A) : res A :=
  fold_left (fun r b => rbind r (fun a => f a b)) l (Ok a).

(** _simple_copy_convert_yuv and _rgb, convert.py 49-58: by name. *)
Definition copy_names (names : list cname) (gin gout : ngrain) : res ngrain :=
  res_fold (fun g n =>
    rbind (ng_comp g n) (fun o => rbind (ng_comp gin n) (fun i => ng_write g o (v_read (g_data gin) i)))) names gout.
Definition copy_yuv := copy_names [CY; CU; CV].
Definition copy_rgb := copy_names [CR; CG; CB].

(** _int_array_mean, 61-63, on elements of a [bits]-bit type. *)
Definition int_mean (bits a b : Z) : Z :=
  ((a / 2 + b / 2) mod 2 ^ bits + Z.lor (Z.land a 0x1) (Z.land b 0x1)) mod 2 ^ bits.

(** _simple_mean_convert_yuv444__yuv422 and _yuv422__yuv420, 67-80: [sl] is the slice along x or y. *)
Definition mean_name (sl : view -> Z -> Z -> view) (gin g : ngrain) (n : cname) : res ngrain :=
  rbind (ng_comp gin n) (fun i =>
  rbind (a_map2 (int_mean (ng_bits gin)) (v_read (g_data gin) (sl i 0 2)) (v_read (g_data gin) (sl i 1 2))) (fun a =>
  rbind (ng_comp g n) (fun o => ng_write g o a))).
Definition mean_conv (sl : view -> Z -> Z -> view) (gin gout : ngrain) : res ngrain :=
  rbind (copy_names [CY] gin gout) (fun g => res_fold (mean_name sl gin) [CU; CV] g).

(** _simple_duplicate_convert_yuv422__yuv444 and _yuv420__yuv422, 84-99. *)
Definition dup_name (sl : view -> Z -> Z -> view) (gin g : ngrain) (n : cname) : res ngrain :=
  res_fold (fun g k =>
    rbind (ng_comp g n) (fun o => rbind (ng_comp gin n) (fun i => ng_write g (sl o k 2) (v_read (g_data gin) i)))) [0; 1] g.
Definition dup_conv (sl : view -> Z -> Z -> view) (gin gout : ngrain) : res ngrain :=
  rbind (copy_names [CY] gin gout) (fun g => res_fold (dup_name sl gin) [CU; CV] g).

(** _unbiased_right_shift, 103-104. *)
Definition unbiased_shift (bits n a : Z) : Z := (Z.shiftr a n + Z.land (Z.shiftr a (n - 1)) 0x1) mod 2 ^ bits.

(** _noisy_left_shift, 129-131; [r] is the scaled random number. *)
Definition noisy_shift (bits n a r : Z) : Z :=
  ((Z.shiftl a n) mod 2 ^ bits + Z.land r (Z.shiftl 1 n - 1)) mod 2 ^ bits.

(** The components of a bit depth conversion: by number for YUV (107-115, 134-144), by name for RGB (118-126, 147-157). *)
Definition by_number (g : ngrain) (i : nat) : res view := ng_view g i.
Definition by_rgb_name (g : ngrain) (i : nat) : res view := ng_comp g (nth i [CR; CG; CB] CR).

Definition down_conv (pick : ngrain -> nat -> res view) (gin gout : ngrain) : res ngrain :=
  let bitshift := ACTIVE_BITS (g_fmt gin) - ACTIVE_BITS (g_fmt gout) in
  res_fold (fun g i => rbind (pick g i) (fun o => rbind (pick gin i) (fun s =>
    ng_write g o (a_map (unbiased_shift (ng_bits gin) bitshift) (v_read (g_data gin) s))))) [0%nat; 1%nat; 2%nat] gout.

Definition up_conv (o : oracle) (pick : ngrain -> nat -> res view) (gin gout : ngrain) : res ngrain :=
  let bitshift := ACTIVE_BITS (g_fmt gout) - ACTIVE_BITS (g_fmt gin) in
  res_fold (fun g i => rbind (pick g i) (fun ov => rbind (pick gin i) (fun s =>
    let a := v_read (g_data gin) s in
    ng_write g ov (mkArr (a_w a) (a_h a) (fun x y =>
      noisy_shift (ng_bits gout) bitshift (a_at a x y mod 2 ^ ng_bits gout) (o_noise o (g_fmt gin) (Z.of_nat i) x y))))))
    [0%nat; 1%nat; 2%nat] gout.

(** np.clip(..., 0, 1 << bd, out=..., casting="unsafe"), 161-188: [t] is the truncated product. *)
Definition clip_to (bd t : Z) : Z := Z.min (Z.max t 0) (Z.shiftl 1 bd).

(** np.clip with [out=]: the result has the broadcast shape of the operands, which must be the shape of [out]. *)
Definition matrix_name (o : oracle) (bd : Z) (ins : arr * arr * arr) (g : ngrain) (kn : Z * cname) : res ngrain :=
  let '(a, b, c) := ins in
  rbind (ng_comp g (snd kn)) (fun ov =>
  rbind (bcast (a_w a) (a_w b)) (fun w => rbind (bcast w (a_w c)) (fun w =>
  rbind (bcast (a_h a) (a_h b)) (fun h => rbind (bcast h (a_h c)) (fun h =>
  if (w =? v_w ov) && (h =? v_h ov) then
    ng_write g ov (mkArr w h (fun x y =>
      clip_to bd (o_matrix o (fst kn) (a_at a (bidx (a_w a) x) (bidx (a_h a) y)) (a_at b (bidx (a_w b) x) (bidx (a_h b) y))
                                      (a_at c (bidx (a_w c) x) (bidx (a_h c) y)))))
  else Err EValue))))).

Definition read_names (g : ngrain) (n1 n2 n3 : cname) : res (arr * arr * arr) :=
  rbind (ng_comp g n1) (fun a => rbind (ng_comp g n2) (fun b => rbind (ng_comp g n3) (fun c =>
    Ok (v_read (g_data g) a, v_read (g_data g) b, v_read (g_data g) c)))).

(** _convert_rgb_to_yuv444, 161-173, and _convert_yuv444_to_rgb, 176-188. *)
Definition rgb_to_yuv (o : oracle) (gin gout : ngrain) : res ngrain :=
  rbind (read_names gin CR CG CB) (fun ins => res_fold (matrix_name o (ACTIVE_BITS (g_fmt gout)) ins) [(0, CY); (1, CU); (2, CV)] gout).
Definition yuv_to_rgb (o : oracle) (gin gout : ngrain) : res ngrain :=
  rbind (read_names gin CY CU CV) (fun ins => res_fold (matrix_name o (ACTIVE_BITS (g_fmt gin)) ins) [(3, CR); (4, CG); (5, CB)] gout).

(** The words of a line of v210: 32*((width + 47)//48). *)
Definition v210_words (w : Z) : Z := 32 * ((w + 47) / 48).

(** _convert_v210_to_yuv422_10bit, 191-253: a local array is a buffer with one row after the other. *)
Definition local_view (w h : Z) : view := mkView 0 1 w w h.
Definition from_v210 (gin gout : ngrain) : res ngrain :=
  let w := g_w gin in let W := v210_words w in
  if negb (g_len gin =? g_h gin * W) then Err EValue
  else
    let part sh := fun i => Z.land (Z.shiftr (g_data gin i) sh) 0x3FF in
    let whole := local_view W (g_h gin) in
    let put g n k sh start step count :=
      rbind (ng_comp g n) (fun o => ng_write g (v_slice_x o k 3) (v_read (part sh) (v_first (v_slice_x whole start step) count))) in
    rbind (put gout CY 0 10 0 2 ((w + 2) / 3)) (fun g =>
    rbind (put g CY 1 0 1 2 ((w + 1) / 3)) (fun g =>
    rbind (put g CY 2 20 1 2 ((w + 0) / 3)) (fun g =>
    rbind (put g CU 0 0 0 4 ((w / 2 + 2) / 3)) (fun g =>
    rbind (put g CU 1 10 1 4 ((w / 2 + 1) / 3)) (fun g =>
    rbind (put g CU 2 20 2 4 ((w / 2 + 0) / 3)) (fun g =>
    rbind (put g CV 0 20 0 4 ((w / 2 + 2) / 3)) (fun g =>
    rbind (put g CV 1 0 2 4 ((w / 2 + 1) / 3)) (fun g =>
    put g CV 2 10 3 4 ((w / 2 + 0) / 3))))))))).

(** _convert_yuv422_10bit_to_v210, 256-286. *)
Definition to_v210 (gin gout : ngrain) : res ngrain :=
  let w := g_w gin in let W := v210_words w in
  let whole := local_view W (g_h gin) in
  let put d start step count n k :=
    rbind (ng_comp gin n) (fun i => v_assign 32 d (v_first (v_slice_x whole start step) count) (v_read (g_data gin) (v_slice_x i k 3))) in
  let zero := fun _ : Z => 0 in
  rbind (put zero 0 4 ((w / 2 + 2) / 3) CU 0) (fun first =>
  rbind (put first 1 2 ((w + 1) / 3) CY 1) (fun first =>
  rbind (put first 2 4 ((w / 2 + 1) / 3) CV 1) (fun first =>
  rbind (put zero 0 2 ((w + 2) / 3) CY 0) (fun second =>
  rbind (put second 1 4 ((w / 2 + 1) / 3) CU 1) (fun second =>
  rbind (put second 3 4 ((w / 2 + 0) / 3) CV 2) (fun second =>
  rbind (put zero 0 4 ((w / 2 + 2) / 3) CV 0) (fun third =>
  rbind (put third 1 2 ((w + 0) / 3) CY 2) (fun third =>
  rbind (put third 2 4 ((w / 2 + 0) / 3) CU 2) (fun third =>
  if negb (g_len gout =? g_h gin * W) then Err EValue
  else Ok (mkNg (g_fmt gout) (g_w gout) (g_h gout) (g_item gout) (g_len gout) (fun i =>
    ((first i + Z.shiftl (second i) 10 mod 2 ^ 32) mod 2 ^ 32 + Z.shiftl (third i) 20 mod 2 ^ 32) mod 2 ^ 32))))))))))).

(** The conversion functions. *)
Inductive conv :=
  | KCopyYuv | KCopyRgb | KMean444 | KMean422 | KDup422 | KDup420 | KDownYuv | KDownRgb | KUpYuv | KUpRgb
  | KRgbToYuv | KYuvToRgb | KFromV210 | KToV210
  | KCompose (first : conv) (mid : Z) (second : conv)
  | KTwoStep (fmt_in fmt_mid fmt_out : Z).

(** The dictionary _grain_conversions, latest registration first. *)
Definition ctable := list (Z * Z * conv).
Definition lookup (t : ctable) (a b : Z) : res conv :=
  match find (fun e => (fst (fst e) =? a) && (snd (fst e) =? b)) t with Some e => Ok (snd e) | None => Err EUnsupported end.

(** Calling a conversion function. *)
Fixpoint run_conv (fuel : nat) (t : ctable) (o : oracle) (k : conv) (gin gout : ngrain) : res ngrain :=
  match fuel with
  | O => Err EFuel
  | S fuel =>
      match k with
      | KCopyYuv => copy_yuv gin gout
      | KCopyRgb => copy_rgb gin gout
      | KMean444 => mean_conv v_slice_x gin gout
      | KMean422 => mean_conv v_slice_y gin gout
      | KDup422 => dup_conv v_slice_x gin gout
      | KDup420 => dup_conv v_slice_y gin gout
      | KDownYuv => down_conv by_number gin gout
      | KDownRgb => down_conv by_rgb_name gin gout
      | KUpYuv => up_conv o by_number gin gout
      | KUpRgb => up_conv o by_rgb_name gin gout
      | KRgbToYuv => rgb_to_yuv o gin gout
      | KYuvToRgb => yuv_to_rgb o gin gout
      | KFromV210 => from_v210 gin gout
      | KToV210 => to_v210 gin gout
      | KCompose first mid second =>
          rbind (ng_new mid (g_w gin) (g_h gin)) (fun gm =>
          rbind (run_conv fuel t o first gin gm) (fun gm => run_conv fuel t o second gm gout))
      | KTwoStep a m b =>
          rbind (ng_new m (g_w gin) (g_h gin)) (fun gm =>
          rbind (lookup t a m) (fun k1 => rbind (run_conv fuel t o k1 gin gm) (fun gm =>
          rbind (lookup t m b) (fun k2 => run_conv fuel t o k2 gm gout))))
      end
  end.

(** convert, VideoGrain.py 375-387. Converting to the same format is a deep copy. *)
Definition convert (fuel : nat) (t : ctable) (o : oracle) (g : ngrain) (fmt : Z) : res ngrain :=
  if g_fmt g =? fmt then Ok g
  else rbind (ng_new fmt (g_w g) (g_h g)) (fun gout => rbind (lookup t (g_fmt g) fmt) (fun k => run_conv fuel t o k g gout)).

(** _equivalent_formats, convert.py 304-314. *)
Definition equiv_categories : list (list Z) := [[U8_422; UYVY; YUYV]; [S16_422; v216]; [RGB; U8_444_RGB; RGBx; xRGB; BGRx; xBGR]].
Definition equivalent_formats (fmt : Z) : list Z :=
  match find (fun cat => member cat fmt) equiv_categories with Some cat => cat | None => [fmt] end.

(** COG_PLANAR_FORMAT at the depths used, which exist (C30). *)
Definition pf (c : chroma) (d : Z) : Z := match COG_PLANAR_FORMAT c d with Ok f => f | Err _ => -1 end.

(** distinct_pairs_from, 28-31. *)
Fixpoint distinct_pairs {A} (l : list A) : list (A * A) :=
  match l with [] => [] | x :: l => map (fun y => (x, y)) l ++ distinct_pairs l end.

Definition depths : list Z := [8; 10; 12; 16; 32].

(** The registrations in program order, 289-423. *)
Definition reg_copies (k : conv) (fmts : list Z) : ctable := flat_map (fun p => [(fst p, snd p, k); (snd p, fst p, k)]) (distinct_pairs fmts).
Definition two_step (a m b : Z) : Z * Z * conv := (a, b, KTwoStep a m b).

Definition reg_subsampling : ctable := flat_map (fun bd =>
  flat_map (fun fmt => [(pf YUV_444 bd, fmt, KMean444); (fmt, pf YUV_420 bd, KMean422);
                        (pf YUV_420 bd, fmt, KDup420); (fmt, pf YUV_444 bd, KDup422)]) (equivalent_formats (pf YUV_422 bd)) ++
  [(pf YUV_444 bd, pf YUV_420 bd, KCompose KMean444 (pf YUV_422 bd) KMean422);
   (pf YUV_420 bd, pf YUV_444 bd, KCompose KDup420 (pf YUV_422 bd) KDup422)]) depths.

Definition reg_depth : ctable := flat_map (fun dd =>
  flat_map (fun ss => flat_map (fun f1 => flat_map (fun f2 => [(f2, f1, KDownYuv); (f1, f2, KUpYuv)])
    (equivalent_formats (pf ss (snd dd)))) (equivalent_formats (pf ss (fst dd)))) [YUV_420; YUV_422; YUV_444] ++
  flat_map (fun f1 => flat_map (fun f2 => [(f2, f1, KDownRgb); (f1, f2, KUpRgb)])
    (equivalent_formats (pf CRGB (snd dd)))) (equivalent_formats (pf CRGB (fst dd)))) (distinct_pairs depths).

Definition reg_space : ctable := flat_map (fun d =>
  flat_map (fun fmt => [(pf YUV_444 d, fmt, KYuvToRgb); (fmt, pf YUV_444 d, KRgbToYuv)]) (equivalent_formats (pf CRGB d))) depths.

Definition reg_v210 : ctable := [(v210, S16_422_10BIT, KFromV210); (S16_422_10BIT, v210, KToV210)].

Definition reg_mixed : ctable := flat_map (fun ss => let '(ss1, ss2) := ss in
  flat_map (fun dd => let '(d1, d2) := dd in
    flat_map (fun f11 => flat_map (fun f22 => [two_step f11 (pf ss2 d1) f22; two_step f22 (pf ss1 d2) f11])
      (equivalent_formats (pf ss2 d2))) (equivalent_formats (pf ss1 d1)) ++
    flat_map (fun f12 => flat_map (fun f21 => [two_step f12 (pf ss2 d2) f21; two_step f21 (pf ss2 d2) f12])
      (equivalent_formats (pf ss2 d1))) (equivalent_formats (pf ss1 d2))) (distinct_pairs depths))
  (distinct_pairs [YUV_420; YUV_422; YUV_444]).

Definition reg_rgb_same : ctable := flat_map (fun d =>
  flat_map (fun rgb => flat_map (fun ss => flat_map (fun yuv =>
    [two_step rgb (pf YUV_444 d) yuv; two_step yuv (pf YUV_444 d) rgb])
    (equivalent_formats (pf ss d))) [YUV_420; YUV_422]) (equivalent_formats (pf CRGB d))) depths.

Definition reg_rgb_444 : ctable := flat_map (fun dd => let '(d1, d2) := dd in
  flat_map (fun rgb => flat_map (fun yuv => [two_step rgb (pf YUV_444 d1) yuv; two_step yuv (pf CRGB d2) rgb])
    (equivalent_formats (pf YUV_444 d2))) (equivalent_formats (pf CRGB d1)) ++
  flat_map (fun rgb => flat_map (fun yuv => [two_step rgb (pf YUV_444 d2) yuv; two_step yuv (pf CRGB d1) rgb])
    (equivalent_formats (pf YUV_444 d1))) (equivalent_formats (pf CRGB d2))) (distinct_pairs depths).

Definition reg_rgb_mixed : ctable := flat_map (fun dd => let '(d1, d2) := dd in
  flat_map (fun ss =>
    flat_map (fun rgb => flat_map (fun yuv => [two_step rgb (pf YUV_444 d1) yuv; two_step yuv (pf YUV_444 d1) rgb])
      (equivalent_formats (pf ss d2))) (equivalent_formats (pf CRGB d1)) ++
    flat_map (fun rgb => flat_map (fun yuv => [two_step rgb (pf YUV_444 d2) yuv; two_step yuv (pf YUV_444 d2) rgb])
      (equivalent_formats (pf ss d1))) (equivalent_formats (pf CRGB d2))) [YUV_420; YUV_422]) (distinct_pairs depths).

Definition reg_v210_other : ctable := flat_map (fun d => flat_map (fun ss =>
  flat_map (fun fmt => if negb (fmt =? S16_422_10BIT) then [two_step v210 S16_422_10BIT fmt; two_step fmt S16_422_10BIT v210] else [])
    (equivalent_formats (pf ss d))) [YUV_420; YUV_422; YUV_444; CRGB]) depths.

Definition registrations : ctable :=
  reg_copies KCopyYuv (equivalent_formats U8_422) ++ reg_copies KCopyYuv (equivalent_formats S16_422) ++
  reg_copies KCopyRgb (equivalent_formats U8_444_RGB) ++
  reg_subsampling ++ reg_depth ++ reg_space ++ reg_v210 ++ reg_mixed ++ reg_rgb_same ++ reg_rgb_444 ++ reg_rgb_mixed ++ reg_v210_other.

Definition conversions : ctable := rev registrations.
