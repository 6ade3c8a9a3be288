(** C65: colour space conversions. *)
From Coq Require Import String.
From Verif Require Import Base CogEnums VideoLayout PyValue GrainObj GrainGsf NpView NpSpec NpConvert NpConvSpec NpAudioSpec Psnr PsnrSpec NpObject NpObjectSpec NpObjectExample ColourSpec ColourProofs ColourObject.
Local Open Scope list_scope.

(** RGB to YUV: every sample is in range and is the product without its fraction. *)
Theorem C65_yuv : forall fuel o g f d, has_kind g (rgb444 d) -> In (f, yuv444 d) kinds -> below g (rgb444 d) -> accurate d o ->
  exists g', convert (S fuel) conversions o g f = Ok g' /\ has_kind g' (yuv444 d) /\ same_size g g' /\ below g' (yuv444 d) /\
    forall n x y, In n [CY; CU; CV] -> in_comp (yuv444 d) g' n x y -> truncated (product d (product_of n) (sample g CR x y) (sample g CG x y) (sample g CB x y)) (sample g' n x y).
Proof. exact to_yuv. Qed.
Print Assumptions C65_yuv.
Example C65_yuv_ex :
  accurate 8 (exact_oracle 8) /\
  match rbind (np_convert nx_u5 99 4 (exact_oracle 8) (nx_video RGB 2 2 [255; 0; 0; 0; 255; 0; 0; 0; 255; 255; 255; 255]) U8_444) (fun o => Ok (o_data o)) with
  | Ok d => d = Some [54; 182; 18; 255; 98; 29; 255; 128; 255; 12; 116; 128] | Err _ => False end.
Proof. split; [exact (exact_accurate 8)|vm_compute; reflexivity]. Qed.

(** Greys have no colour, or one less. *)
Theorem C65_greys : forall fuel o g f d, has_kind g (rgb444 d) -> In (f, yuv444 d) kinds -> below g (rgb444 d) -> accurate d o ->
  exists g', convert (S fuel) conversions o g f = Ok g' /\ forall x y, in_comp (yuv444 d) g' CY x y -> sample g CR x y = sample g CG x y -> sample g CG x y = sample g CB x y ->
    sample g CG x y - 1 <= sample g' CY x y <= sample g CG x y /\ 2 ^ (d - 1) - 1 <= sample g' CU x y <= 2 ^ (d - 1) /\ 2 ^ (d - 1) - 1 <= sample g' CV x y <= 2 ^ (d - 1).
Proof. exact greys. Qed.
Print Assumptions C65_greys.
Example C65_greys_ex :
  match rbind (np_convert nx_u5 99 4 (exact_oracle 8) (nx_video RGB 2 2 [0; 0; 0; 1; 1; 1; 100; 100; 100; 255; 255; 255]) U8_444) (fun o => Ok (o_data o)) with
  | Ok d => d = Some [0; 1; 100; 255; 128; 128; 128; 128; 128; 128; 128; 128] | Err _ => False end.
Proof. vm_compute. reflexivity. Qed.

(** YUV to RGB: the product without its fraction if it is in range, and zero if it is below. *)
Theorem C65_rgb : forall fuel o g f d, has_kind g (yuv444 d) -> In (f, rgb444 d) kinds -> below g (yuv444 d) -> accurate d o ->
  exists g', convert (S fuel) conversions o g f = Ok g' /\ has_kind g' (rgb444 d) /\ same_size g g' /\
    forall n x y, In n [CR; CG; CB] -> in_comp (rgb444 d) g' n x y ->
      let p := product d (product_of n) (sample g CY x y) (sample g CU x y) (sample g CV x y) in
      (0 <= p < 1000000 * 2 ^ d - 1000 -> truncated p (sample g' n x y) /\ 0 <= sample g' n x y < 2 ^ d) /\
      (p <= 0 -> sample g' n x y = 0) /\
      (1000000 * 2 ^ d + 1001000 <= p -> sample g' n x y = 2 ^ d mod 2 ^ (8 * g_item g')).
Proof. exact to_rgb. Qed.
Print Assumptions C65_rgb.
Example C65_rgb_ex :
  match rbind (np_convert nx_u5 99 4 (exact_oracle 8) (nx_video U8_444 2 2 [54; 182; 0; 255; 98; 29; 0; 128; 255; 12; 0; 128]) RGB) (fun o => Ok (o_data o)) with
  | Ok d => d = Some [253; 0; 0; 0; 254; 0; 0; 83; 0; 255; 255; 255] | Err _ => False end.
Proof. vm_compute. reflexivity. Qed.

(** Not all that is above is the largest sample: 2^depth is no sample of 8 bits, so that the brightest red is none. *)
Theorem C65_bright_refuted : exists o, np_convert nx_u5 99 4 (exact_oracle 8) (nx_video U8_444 2 2 [255; 255; 255; 255; 128; 128; 128; 128; 128; 160; 200; 255]) RGB = Ok o /\
  o_data o = Some [255; 255; 255; 0; 240; 255; 0; 221; 255; 0; 195; 255].
Proof. eexists. split; [vm_compute; reflexivity|reflexivity]. Qed.
Print Assumptions C65_bright_refuted.

(** There and back a component loses 3 at most, and gains nothing. *)
Theorem C65_round_trip : forall fuel fuel' o g f1 f2 d, has_kind g (rgb444 d) -> In (f1, yuv444 d) kinds -> In (f2, rgb444 d) kinds -> In d depths -> below g (rgb444 d) -> accurate d o ->
  exists g1 g2, convert (S fuel) conversions o g f1 = Ok g1 /\ convert (S fuel') conversions o g1 f2 = Ok g2 /\ has_kind g2 (rgb444 d) /\ same_size g g2 /\ below g2 (rgb444 d) /\
    forall n x y, In n [CR; CG; CB] -> in_comp (rgb444 d) g n x y -> sample g n x y - loss n <= sample g2 n x y <= sample g n x y.
Proof. exact round_trip. Qed.
Print Assumptions C65_round_trip.

(** So for grains: with everything that converting them keeps. *)
Theorem C65_returned : forall u5 now fuel noise o f1 f2 f d w h b src flow origin sync rate duration layout,
  video_of o f w h b -> bytes_ok b -> labelled o src flow origin sync rate duration layout -> In (f, rgb444 d) kinds -> In (f1, yuv444 d) kinds -> In (f2, rgb444 d) kinds -> In d depths -> accurate d noise ->
  (forall n x y, In n [CR; CG; CB] -> 0 <= x < w -> 0 <= y < h -> 0 <= sample (shown f w h b) n x y < 2 ^ d) ->
  (4 <= fuel)%nat -> 0 <= w -> 0 <= h -> w mod 2 = 0 -> h mod 2 = 0 ->
  exists o' b', np_converts u5 now fuel noise o [f1; f2] = Ok o' /\ video_of o' f2 w h b' /\ labelled o' src (u5 (u5 flow f1) f2) origin sync rate duration layout /\
    forall n x y, In n [CR; CG; CB] -> 0 <= x < w -> 0 <= y < h -> sample (shown f w h b) n x y - loss n <= sample (shown f2 w h b') n x y <= sample (shown f w h b) n x y.
Proof. exact returned. Qed.
Print Assumptions C65_returned.
Example C65_returned_ex :
  match rbind (np_converts nx_u5 99 4 (exact_oracle 8) (nx_video RGB 2 2 [255; 0; 0; 11; 200; 77; 3; 5; 7; 90; 80; 255]) [U8_444; RGB]) (fun o => Ok (o_data o)) with
  | Ok d => d = Some [253; 0; 0; 9; 199; 75; 0; 4; 5; 87; 79; 253] | Err _ => False end.
Proof. vm_compute. reflexivity. Qed.
