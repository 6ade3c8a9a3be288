(** The properties of the numpy views and the format conversions (C31 to C35). *)
From Verif Require Import Base CogEnums VideoLayout LayoutSpec NpView NpSpec NpConvert NpConvSpec NpConvProofs V210Proofs NpTable NpTheorems NpDepth NpPacked ColourSpec.

(** C31. v210. Unpacking reads the sample of the stated field of the stated word; packing writes it there and leaves nothing
    in the other bits; the two undo each other. Every width and height, odd ones too. *)
Theorem C31_unpack : forall fuel o v, v210_ok v -> exists g, convert (S fuel) conversions o v S16_422_10BIT = Ok g /\ has_kind g (yuv422 10) /\ same_size v g /\
  forall n x y, In n [CY; CU; CV] -> in_comp (yuv422 10) g n x y -> sample g n x y = v210_sample v n x y.
Proof. exact unpack. Qed.
Print Assumptions C31_unpack.

Theorem C31_pack : forall fuel o g, has_kind g (yuv422 10) -> below g (yuv422 10) ->
  exists v, convert (S fuel) conversions o g v210 = Ok v /\ v210_ok v /\ v210_clean v /\ same_size g v /\
  forall n x y, In n [CY; CU; CV] -> in_comp (yuv422 10) g n x y -> v210_sample v n x y = sample g n x y.
Proof. exact pack. Qed.
Print Assumptions C31_pack.

Theorem C31_round_trip : forall fuel o g, has_kind g (yuv422 10) -> below g (yuv422 10) ->
  exists v g', convert (S fuel) conversions o g v210 = Ok v /\ convert (S fuel) conversions o v S16_422_10BIT = Ok g' /\
    has_kind g' (yuv422 10) /\ same_picture (yuv422 10) g g'.
Proof. exact pack_unpack. Qed.
Print Assumptions C31_round_trip.

Theorem C31_round_trip_words : forall fuel o v, v210_ok v -> v210_clean v ->
  exists g v', convert (S fuel) conversions o v S16_422_10BIT = Ok g /\ convert (S fuel) conversions o g v210 = Ok v' /\ g_len v' = g_len v /\
    forall i, 0 <= i < g_len v -> g_data v' i = g_data v i.
Proof. exact unpack_pack. Qed.
Print Assumptions C31_round_trip_words.

(** Seven pixels, two lines, every item its own number: the first line has Y 0 to 6, U 14 15 16 and V 20 21 22. *)
Example C31_example :
  let o := mkOracle (fun _ _ _ _ => 0) (fun _ _ _ _ => 0) in
  match rbind (filled S16_422_10BIT 7 2 (fun i => i mod 1024)) (fun g => convert 1 conversions o g v210) with
  | Ok v => map (g_data v) [0; 1; 2; 3; 4; 5] =
              [14 + 0 * 2 ^ 10 + 21 * 2 ^ 20; 1 + 15 * 2 ^ 10 + 2 * 2 ^ 20; 22 + 3 * 2 ^ 10 + 16 * 2 ^ 20; 4 + 23 * 2 ^ 10 + 5 * 2 ^ 20; 6 * 2 ^ 10; 0] /\
            map (fun x => v210_sample v CY x 0) [0; 1; 2; 3; 4; 5; 6] = [0; 1; 2; 3; 4; 5; 6]
  | Err _ => False
  end.
Proof. vm_compute. split; reflexivity. Qed.

(** C32. Chroma averages: the mean of the two samples, halves up, between the two; duplicating and averaging changes nothing. *)
Theorem C32_mean_444 : forall fuel o g d f, has_kind g (yuv444 d) -> In (f, yuv422 d) kinds -> g_w g mod 2 = 0 ->
  exists g', convert (S fuel) conversions o g f = Ok g' /\ g_fmt g' = f /\ has_kind g' (yuv422 d) /\ same_size g g' /\
    (forall x y, 0 <= x < g_w g -> 0 <= y < g_h g -> sample g' CY x y = sample g CY x y) /\
    (forall n x y, In n [CU; CV] -> 0 <= x < g_w g / 2 -> 0 <= y < g_h g ->
       let s1 := sample g n (2 * x) y in let s2 := sample g n (2 * x + 1) y in
       s1 + s2 <= 2 * sample g' n x y <= s1 + s2 + 1 /\ Z.min s1 s2 <= sample g' n x y <= Z.max s1 s2).
Proof. exact mean_444. Qed.
Print Assumptions C32_mean_444.

Theorem C32_mean_422 : forall fuel o g d f, has_kind g (yuv422 d) -> In (f, yuv420 d) kinds -> g_w g mod 2 = 0 -> g_h g mod 2 = 0 ->
  exists g', convert (S fuel) conversions o g f = Ok g' /\ g_fmt g' = f /\ has_kind g' (yuv420 d) /\ same_size g g' /\
    (forall x y, 0 <= x < g_w g -> 0 <= y < g_h g -> sample g' CY x y = sample g CY x y) /\
    (forall n x y, In n [CU; CV] -> 0 <= x < g_w g / 2 -> 0 <= y < g_h g / 2 ->
       let s1 := sample g n x (2 * y) in let s2 := sample g n x (2 * y + 1) in
       s1 + s2 <= 2 * sample g' n x y <= s1 + s2 + 1 /\ Z.min s1 s2 <= sample g' n x y <= Z.max s1 s2).
Proof. exact mean_422. Qed.
Print Assumptions C32_mean_422.

Theorem C32_dup_mean_422 : forall fuel o g d f f', has_kind g (yuv422 d) -> In (f, yuv444 d) kinds -> In (f', yuv422 d) kinds -> g_w g mod 2 = 0 ->
  exists g1 g2, convert (S fuel) conversions o g f = Ok g1 /\ convert (S fuel) conversions o g1 f' = Ok g2 /\
    has_kind g2 (yuv422 d) /\ same_picture (yuv422 d) g g2.
Proof. exact dup_mean_422. Qed.
Print Assumptions C32_dup_mean_422.

Theorem C32_dup_mean_420 : forall fuel o g d f f', has_kind g (yuv420 d) -> In (f, yuv422 d) kinds -> In (f', yuv420 d) kinds -> g_w g mod 2 = 0 -> g_h g mod 2 = 0 ->
  exists g1 g2, convert (S fuel) conversions o g f = Ok g1 /\ convert (S fuel) conversions o g1 f' = Ok g2 /\
    has_kind g2 (yuv420 d) /\ same_picture (yuv420 d) g g2.
Proof. exact dup_mean_420. Qed.
Print Assumptions C32_dup_mean_420.

(** 254 and 255 average to 255 although their sum does not fit in a byte. *)
Example C32_example :
  let o := mkOracle (fun _ _ _ _ => 0) (fun _ _ _ _ => 0) in
  match rbind (filled U8_444 4 1 (fun i => nth (Z.to_nat i) [1; 2; 3; 4; 254; 255; 7; 10; 0; 1; 255; 255] 0)) (fun g => convert 1 conversions o g UYVY) with
  | Ok g => line_of g CY 0 4 = [1; 2; 3; 4] /\ line_of g CU 0 2 = [255; 9] /\ line_of g CV 0 2 = [1; 255]
  | Err _ => False
  end.
Proof. vm_compute. repeat split; reflexivity. Qed.

(** C33. Bit depths. *)
Theorem C33_down : forall fuel o g a f b, has_kind g a -> In (f, b) kinds -> k_model a = k_model b -> same_sub a b = true -> k_depth b < k_depth a ->
  even_size a (g_w g) (g_h g) -> below g a ->
  let n := k_depth a - k_depth b in
  exists g', convert (S fuel) conversions o g f = Ok g' /\ g_fmt g' = f /\ has_kind g' b /\ same_size g g' /\
    forall c x y, In c (names (k_model b)) -> in_comp b g' c x y ->
      let s := sample g c x y in
      (s < 2 ^ k_depth a - 2 ^ (n - 1) -> 0 <= sample g' c x y < 2 ^ k_depth b /\ s - 2 ^ (n - 1) < 2 ^ n * sample g' c x y <= s + 2 ^ (n - 1)) /\
      (2 ^ k_depth a - 2 ^ (n - 1) <= s -> sample g' c x y = if (k_depth b =? 8) || (k_depth b =? 16) then 0 else 2 ^ k_depth b).
Proof. exact depth_down. Qed.
Print Assumptions C33_down.

Theorem C33_up : forall fuel o g a f b, has_kind g a -> In (f, b) kinds -> k_model a = k_model b -> same_sub a b = true -> k_depth a < k_depth b ->
  even_size a (g_w g) (g_h g) -> below g a ->
  exists g', convert (S fuel) conversions o g f = Ok g' /\ g_fmt g' = f /\ has_kind g' b /\ same_size g g' /\ below g' b /\
    forall c x y, In c (names (k_model b)) -> in_comp b g' c x y -> sample g' c x y / 2 ^ (k_depth b - k_depth a) = sample g c x y.
Proof. exact depth_up. Qed.
Print Assumptions C33_up.

(** Up and down again is the sample or the next, whatever the noise. *)
Theorem C33_up_down : forall fuel o g a f b f', has_kind g a -> In (f, b) kinds -> In (f', a) kinds -> k_model a = k_model b -> same_sub a b = true -> k_depth a < k_depth b ->
  even_size a (g_w g) (g_h g) -> below g a ->
  exists g1 g2, convert (S fuel) conversions o g f = Ok g1 /\ convert (S fuel) conversions o g1 f' = Ok g2 /\ has_kind g2 a /\ same_size g g2 /\
    forall c x y, In c (names (k_model a)) -> in_comp a g2 c x y ->
      let s := sample g c x y in
      (s < 2 ^ k_depth a - 1 -> sample g2 c x y = s \/ sample g2 c x y = s + 1) /\
      (s = 2 ^ k_depth a - 1 -> sample g2 c x y = s \/ sample g2 c x y = if (k_depth a =? 8) || (k_depth a =? 16) then 0 else 2 ^ k_depth a).
Proof. exact depth_up_down. Qed.
Print Assumptions C33_up_down.

(** The wider claim, that the result is always a value of the new depth near the old one, fails: white becomes black. *)
Theorem C33_top_refuted : exists g g', filled S16_444_10BIT 1 1 (fun _ => 1023) = Ok g /\
  convert 1 conversions (mkOracle (fun _ _ _ _ => 0) (fun _ _ _ _ => 0)) g U8_444 = Ok g' /\ sample g CY 0 0 = 1023 /\ sample g' CY 0 0 = 0.
Proof. eexists. eexists. split; [vm_compute; reflexivity |]. split; [vm_compute; reflexivity |]. split; vm_compute; reflexivity. Qed.
Print Assumptions C33_top_refuted.

(** 12 bits to 10, where there is room for the overflow; 8 bits to 10 to 8 with noise 2 of 0 to 3. *)
Example C33_example :
  let o := mkOracle (fun _ _ _ _ => 2) (fun _ _ _ _ => 0) in
  match rbind (filled S16_444_12BIT 5 1 (fun i => nth (Z.to_nat i) [0; 5; 6; 4093; 4094] 0)) (fun g => convert 1 conversions o g S16_444_10BIT) with
  | Ok g => line_of g CY 0 5 = [0; 1; 2; 1023; 1024] | Err _ => False end /\
  match rbind (filled U8_444 3 1 (fun i => nth (Z.to_nat i) [0; 100; 255] 0)) (fun g => rbind (convert 1 conversions o g S16_444_10BIT) (fun g => convert 1 conversions o g U8_444)) with
  | Ok g => line_of g CY 0 3 = [1; 101; 0] | Err _ => False end.
Proof. vm_compute. split; reflexivity. Qed.

(** C34. The table: every pair of formats has a conversion, which succeeds for even sizes; no others have one. *)
Theorem C34_complete : forall fuel o g f, (4 <= fuel)%nat -> np_ok g -> In (g_fmt g) formats -> In f formats -> g_w g mod 2 = 0 -> g_h g mod 2 = 0 ->
  exists g', convert fuel conversions o g f = Ok g' /\ np_ok g' /\ g_fmt g' = f /\ same_size g g'.
Proof. exact convert_all. Qed.
Print Assumptions C34_complete.

Theorem C34_only : forall a b k, In (a, b, k) conversions -> In a formats /\ In b formats /\ a <> b.
Proof. exact table_only. Qed.
Print Assumptions C34_only.

Theorem C34_unknown : forall a b, ~ In a formats \/ ~ In b formats -> lookup conversions a b = Err EUnsupported.
Proof. exact lookup_none. Qed.
Print Assumptions C34_unknown.

Theorem C34_two_steps : forall a b a' m b', In (a, b, KTwoStep a' m b') conversions -> a' = a /\ b' = b /\
  (exists k1 k2, lookup conversions a m = Ok k1 /\ lookup conversions m b = Ok k2) /\ In m formats.
Proof. exact (fun a b a' m b' => two_steps conversions a b a' m b' steps_checked). Qed.
Print Assumptions C34_two_steps.

Theorem C34_middle : forall a ka b kb a' m b', In (a, ka) kinds -> In (b, kb) kinds -> lookup conversions a b = Ok (KTwoStep a' m b') -> In (m, middle ka kb) kinds.
Proof. exact middle_kind. Qed.
Print Assumptions C34_middle.

Theorem C34_middle_v210 : forall b a' m b', lookup conversions v210 b = Ok (KTwoStep a' m b') \/ lookup conversions b v210 = Ok (KTwoStep a' m b') -> m = S16_422_10BIT.
Proof. exact middle_v210. Qed.
Print Assumptions C34_middle_v210.
Example C34_middle_ex : lookup conversions U8_420 S16_444_10BIT_RGB = Ok (KTwoStep U8_420 S16_444_10BIT S16_444_10BIT_RGB) /\
  lookup conversions U8_444 S16_422_10BIT = Ok (KTwoStep U8_444 S16_444_10BIT S16_422_10BIT) /\ lookup conversions v210 RGB = Ok (KTwoStep v210 S16_422_10BIT RGB).
Proof. vm_compute. repeat split. Qed.

(** Converting between arrangements of the same kind of picture changes nothing. *)
Theorem C34_same_kind : forall fuel o g k f, has_kind g k -> In (f, k) kinds -> even_size k (g_w g) (g_h g) ->
  exists g', convert (S fuel) conversions o g f = Ok g' /\ g_fmt g' = f /\ has_kind g' k /\ same_picture k g g'.
Proof. exact same_kind_copy. Qed.
Print Assumptions C34_same_kind.

(** Even sizes are needed. *)
Theorem C34_odd_refuted : exists g, filled U8_444 5 3 (fun i => i) = Ok g /\
  convert 4 conversions (mkOracle (fun _ _ _ _ => 0) (fun _ _ _ _ => 0)) g U8_422 = Err EValue.
Proof. eexists. split; [vm_compute; reflexivity |]. vm_compute. reflexivity. Qed.
Print Assumptions C34_odd_refuted.

(** Colour space products are clipped to 2^depth, one too many: 256 is stored as 0. *)
Theorem C34_clip_refuted : exists g g', filled U8_444 1 1 (fun _ => 255) = Ok g /\
  convert 4 conversions (exact_oracle 8) g RGB = Ok g' /\ product 8 3 255 255 255 = 454999600 /\ sample g' CR 0 0 = 0.
Proof. eexists. eexists. split; [vm_compute; reflexivity |]. split; [vm_compute; reflexivity |]. split; vm_compute; reflexivity. Qed.
Print Assumptions C34_clip_refuted.

(** RGB to v210: four conversions. The colour product is taken to be the first input. *)
Example C34_example :
  let o := mkOracle (fun _ _ _ _ => 1) (fun _ a _ _ => a) in
  match rbind (filled RGB 4 2 (fun i => 10 * i)) (fun g => convert 4 conversions o g v210) with
  | Ok g => map (fun x => v210_sample g CY x 0) [0; 1; 2; 3] = [1; 121; 241; 361] | Err _ => False end.
Proof. vm_compute. reflexivity. Qed.

(** C35. The samples of the component arrays and the used items of the buffer correspond one to one, in the order of the
    format; planar arrays are the planes. *)
Theorem C35_packed : forall f grp w h, In (f, grp) groups -> 0 <= w -> 0 <= h ->
  exists g, ng_new f w h = Ok g /\ g_fmt g = f /\ g_w g = w /\ g_h g = h /\ laid_out g grp.
Proof. exact packed_layout. Qed.
Print Assumptions C35_packed.

Theorem C35_planar : forall f hs vs b w h, In (f, Planar hs vs b) pictures -> 0 <= w -> 0 <= h ->
  exists g, ng_new f w h = Ok g /\ g_item g = b /\ g_len g * b = size_for_format f w h /\
    forall i c, nth_error (components_for_format f w h) i = Some c -> exists v, ng_view g i = Ok v /\ v_w v = vc_width c /\ v_h v = vc_height c /\
      forall x y, 0 <= x < v_w v -> 0 <= y < v_h v ->
        v_addr v x y * b = vc_offset c + y * vc_stride c + x * b /\ vc_offset c <= v_addr v x y * b /\ v_addr v x y * b + b <= vc_offset c + vc_length c.
Proof. exact planar_layout. Qed.
Print Assumptions C35_planar.

(** AYUV is not in the list: its arrays leave the buffer. BGRA cannot be seen as a numpy grain at all. *)
Theorem C35_ayuv_refuted : exists g v, ng_new AYUV 4 4 = Ok g /\ ng_comp g CV = Ok v /\ v_w v = 4 /\ v_h v = 4 /\ g_len g < v_addr v 3 3.
Proof. eexists. eexists. split; [vm_compute; reflexivity |]. split; [vm_compute; reflexivity |]. vm_compute. repeat split; reflexivity. Qed.
Print Assumptions C35_ayuv_refuted.

Theorem C35_bgra_refuted : ng_new BGRA 2 2 = Err EUnsupported.
Proof. vm_compute. reflexivity. Qed.
Print Assumptions C35_bgra_refuted.

Example C35_example : match filled UYVY 4 2 (fun i => i) with
  | Ok g => line_of g CY 1 4 = [9; 11; 13; 15] /\ line_of g CU 1 2 = [8; 12] /\ line_of g CV 1 2 = [10; 14] | Err _ => False end /\
  item_at (2, [Some (CU, 0); Some (CY, 0); Some (CV, 0); Some (CY, 1)]) 4 11 = Some (CY, 1, 1).
Proof. vm_compute. repeat split; reflexivity. Qed.
