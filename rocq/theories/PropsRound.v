(** C71: conversions to finer formats, and back. *)
From Coq Require Import String.
From Verif Require Import Base GsfPrim CogEnums VideoLayout PyValue GrainObj GrainGsf Compare CompareSpec NpView NpSpec NpConvert NpConvSpec Psnr PsnrSpec NpObject NpObjectSpec NpObjectExample RoundSpec RoundBack RoundExample.
Local Open Scope list_scope.

(** Through any formats of the same colours and bits with at least as many chroma samples, v210 among them: every sample of the last grain is
    the sample of the first that covers its place; if they have as many, it is the same picture. (v210 has room for 10 bits of a sample.) *)
Theorem C71_finer : forall u5 now fuel noise src origin sync rate duration layout w h fmts o f k d flow, (4 <= fuel)%nat -> 0 <= w -> 0 <= h -> w mod 2 = 0 -> h mod 2 = 0 ->
  video_of o f w h d -> bytes_ok d -> labelled o src flow origin sync rate duration layout -> In (f, k) pictured -> Forall (fine k) fmts -> (In v210 fmts -> modest (shown f w h d) k) ->
  exists o' d' b, np_converts u5 now fuel noise o fmts = Ok o' /\ video_of o' (last_of f fmts) w h d' /\ labelled o' src (flow_after u5 f flow fmts) origin sync rate duration layout /\
    In (last_of f fmts, b) pictured /\ finer b k /\ carried k (shown f w h d) b (shown (last_of f fmts) w h d') /\
    (b = k -> forall n x y, In n (names (k_model k)) -> in_comp k (shown f w h d) n x y -> pixel (shown (last_of f fmts) w h d') n x y = pixel (shown f w h d) n x y).
Proof. exact finer_chain. Qed.
Print Assumptions C71_finer.
Example C71_finer_ex :
  rd_payload (rd_through [U8_422; YUYV] rd_420) = Ok (Some [10; 1; 20; 3; 30; 2; 40; 4; 50; 1; 60; 3; 70; 2; 80; 4]) /\
  rd_payload (rd_through [UYVY; U8_444] rd_420) = Ok (Some [10; 20; 30; 40; 50; 60; 70; 80; 1; 1; 2; 2; 1; 1; 2; 2; 3; 3; 4; 4; 3; 3; 4; 4]) /\
  fine (yuv420 8) YUYV /\ fine (yuv422 10) v210 /\ fine (yuv420 10) v210 /\ ~ In (U8_420, yuv422 8) pictured /\ across (yuv420 8) (yuv444 8) CU 3 = 1 /\ down (yuv420 8) (yuv422 8) CV 1 = 0.
Proof.
  split; [vm_compute; reflexivity|]. split; [vm_compute; reflexivity|].
  split; [exists (yuv422 8); split; [cbn; tauto|vm_compute; intuition discriminate]|]. split; [exists (yuv422 10); split; [cbn; tauto|vm_compute; intuition discriminate]|].
  split; [exists (yuv422 10); split; [cbn; tauto|vm_compute; intuition discriminate]|]. split; [|vm_compute; auto].
  intros X. apply (in_map (fun e => if fst e =? U8_420 then k_vs (snd e) else 2)) in X. vm_compute in X. intuition discriminate.
Qed.

(** Back to the format it had: the payload is that of the first grain, byte for byte. *)
Theorem C71_back : forall u5 now fuel noise src origin sync rate duration layout w h fmts o f k d flow, (4 <= fuel)%nat -> 0 < w -> 0 < h -> w mod 2 = 0 -> h mod 2 = 0 ->
  video_of o f w h d -> bytes_ok d -> labelled o src flow origin sync rate duration layout -> In (f, k) pictured -> Forall (fine k) fmts -> (In v210 fmts -> modest (shown f w h d) k) ->
  last_of f fmts = f -> no_padding (shown f w h d) ->
  exists o', np_converts u5 now fuel noise o fmts = Ok o' /\ video_of o' f w h d /\ labelled o' src (flow_after u5 f flow fmts) origin sync rate duration layout /\
    (labels o = Ok [] -> labels o' = Ok []) /\ (getattr o' $"creation_timestamp" = getattr o $"creation_timestamp" \/ getattr o' $"creation_timestamp" = Ok (PTime now)).
Proof. exact there_and_back. Qed.
Print Assumptions C71_back.
Example C71_back_ex :
  rd_payload (rd_through [U8_422; YUYV; U8_444; UYVY; U8_420] rd_420) = get_data rd_420 /\ rd_payload (rd_through [U8_444; U8_420] rd_420) = get_data rd_420 /\
  rd_payload (rd_through [v210; S16_444_10BIT; v210; S16_422_10BIT] rd_10) = get_data rd_10.
Proof. vm_compute. auto. Qed.

(** So it compares equal to the first grain, but for the flow. *)
Theorem C71_compared : forall psnr opts u5 now fuel noise src origin sync rate duration layout w h fmts o f k d flow, (4 <= fuel)%nat -> 0 < w -> 0 < h -> w mod 2 = 0 -> h mod 2 = 0 ->
  video_of o f w h d -> bytes_ok d -> labelled o src flow origin sync rate duration layout -> In (f, k) pictured -> Forall (fine k) fmts -> (In v210 fmts -> modest (shown f w h d) k) ->
  last_of f fmts = f -> no_padding (shown f w h d) -> labels o = Ok [] -> readable o $"creation_timestamp" -> no_matchers opts -> waived opts (path $"flow_id") -> ~ In (Include $"creation_timestamp") opts ->
  exists o' r, np_converts u5 now fuel noise o fmts = Ok o' /\ compare_grain psnr opts o o' = Ok r /\ r_equal r = true.
Proof. exact compared_back. Qed.
Print Assumptions C71_compared.
Example C71_compared_ex :
  rd_verdict [U8_444; U8_420] [Exclude $"flow_id"] rd_420 = Ok true /\ rd_verdict [U8_444; U8_420] [] rd_420 = Ok false /\ rd_verdict [U8_444] [Exclude $"flow_id"] rd_420 = Ok false /\
  rd_verdict [v210; S16_422_10BIT] [Exclude $"flow_id"] rd_10 = Ok true.
Proof. vm_compute. auto. Qed.

(** A coarser format on the way loses chroma; v210 cuts samples that have more than 10 bits; the unused byte of a pixel is lost. *)
Theorem C71_coarser_refuted : ~ (forall o fmts f w h d o', video_of o f w h d -> Forall (fun g => In g formats) fmts -> last_of f fmts = f -> rd_through fmts o = Ok o' -> get_data o' = Ok (Some d)).
Proof.
  intros H. assert (V : video_of rd_422 U8_422 2 2 [10; 20; 30; 40; 1; 2; 3; 4]) by exact rd_422_video.
  assert (D : rd_payload (rd_through [U8_420; U8_422] rd_422) = Ok (Some [10; 20; 30; 40; 2; 2; 4; 4])) by (vm_compute; reflexivity).
  specialize (H rd_422 [U8_420; U8_422] U8_422 2 2 [10; 20; 30; 40; 1; 2; 3; 4]). destruct (rd_through [U8_420; U8_422] rd_422) as [o'|]; [|discriminate D].
  unfold rd_payload, rbind in D. rewrite (H o' V) in D; [discriminate D| |reflexivity|reflexivity]. repeat apply Forall_cons; try apply Forall_nil; unfold formats; apply in_or_app; left; cbn [kinds map fst In]; tauto.
Qed.
Print Assumptions C71_coarser_refuted.
Example C71_coarser_ex : rd_payload (rd_through [U8_420; U8_422] rd_422) = Ok (Some [10; 20; 30; 40; 2; 2; 4; 4]) /\
  rd_payload (rd_through [v210; S16_422_10BIT] rd_deep) <> get_data rd_deep /\ rd_payload (rd_through [RGB; RGBx] rd_rgbx) = Ok (Some [1; 2; 3; 0; 4; 5; 6; 0; 7; 8; 9; 0; 10; 11; 12; 0]).
Proof. vm_compute. split; [reflexivity|]. split; [discriminate|reflexivity]. Qed.
