(** C64: converting video grains. *)
From Coq Require Import String.
From Verif Require Import Base GsfPrim CogEnums VideoLayout LayoutSpec PatternSpec PyValue GrainObj BuildSpec GrainCopySpec GrainGsf NpView NpSpec NpGrainProofs NpConvert NpConvSpec NpAudio NpAudioSpec
  Psnr PsnrSpec NpObject NpObjectSpec NpObjectMain NpObjectMore NpObjectExample.
Local Open Scope list_scope.

(** Between any two formats: a grain of that format, with the identity, the times, the rates, the size and the layout, a new flow, and the payload
    of the picture that the conversion gives. *)
Theorem C64_convert : forall u5 now fuel noise o f f' w h d src flow origin sync rate duration layout,
  video_of o f w h d -> bytes_ok d -> labelled o src flow origin sync rate duration layout -> (4 <= fuel)%nat -> In f formats -> In f' formats -> f' <> f ->
  0 <= w -> 0 <= h -> w mod 2 = 0 -> h mod 2 = 0 ->
  exists o' d' g, np_convert u5 now fuel noise o f' = Ok o' /\ video_of o' f' w h d' /\ bytes_ok d' /\ labelled o' src (u5 flow f') origin sync rate duration layout /\
    getattr o' $"creation_timestamp" = Ok (PTime now) /\ labels o' = Ok [] /\
    convert fuel conversions noise (shown f w h d) f' = Ok g /\ np_ok g /\ same_shape g (shown f' w h d') /\ forall i, 0 <= i < g_len g -> g_data (shown f' w h d') i = g_data g i.
Proof. exact converted. Qed.
Print Assumptions C64_convert.
Example C64_convert_ex :
  nx_then (np_convert nx_u5 99 4 nx_noise (nx_video U8_422 2 2 [10; 20; 30; 40; 1; 2; 3; 4]) UYVY) =
    Ok (Some [1; 10; 3; 20; 2; 30; 4; 40], [PInt UYVY; PUuid (2000 + UYVY); PTime 30; PTime 99; PInt 1]).
Proof. vm_compute. reflexivity. Qed.

(** To the format it has: the same metadata and the same payload. So is the grain of numpy arrays that is made of a grain. *)
Theorem C64_again : forall now o f w h d, video_of o f w h d -> In f formats -> 0 <= w -> 0 <= h ->
  np_of now o = Ok (mkO KVideo (o_meta o) (Some d) None) /\ forall u5 fuel noise, np_convert u5 now fuel noise o f = Ok (mkO KVideo (o_meta o) (Some d) None).
Proof. exact same_format. Qed.
Print Assumptions C64_again.
Example C64_again_ex :
  let o := nx_video U8_422 2 2 [10; 20; 30; 40; 1; 2; 3; 4] in np_convert nx_u5 99 4 nx_noise o U8_422 = Ok o /\ np_of 99 o = Ok o.
Proof. vm_compute. split; reflexivity. Qed.

(** The premises hold for grains that were constructed. *)
Theorem C64_made : forall now src flow origin sync creation rate duration f w h layout d, In f formats -> member frame_layouts layout = true -> 0 <= w -> 0 <= h -> zlen d = size_for_format f w h ->
  0 < snd rate -> Z.gcd (fst rate) (snd rate) = 1 -> 0 < snd duration -> Z.gcd (fst duration) (snd duration) = 1 ->
  exists o, np_kw now (mkKw (Some src) (Some flow) (Some origin) (Some sync) creation rate duration) f w h layout (ABytes d) = Ok o /\ video_of o f w h d /\ labelled o src flow origin sync rate duration layout.
Proof. exact np_made. Qed.
Print Assumptions C64_made.
Example C64_made_ex : nx_then (Ok (nx_video U8_422 2 2 [10; 20; 30; 40; 1; 2; 3; 4])) = Ok (Some [10; 20; 30; 40; 1; 2; 3; 4], [PInt U8_422; PUuid 2; PTime 30; PTime 50; PInt 1]).
Proof. vm_compute. reflexivity. Qed.

(** Any number of conversions: the identity, times, rates, size and layout are those of the first grain, and the flow tells the formats that it went through. *)
Theorem C64_chain : forall u5 now fuel noise src origin sync rate duration layout w h, (4 <= fuel)%nat -> 0 <= w -> 0 <= h -> w mod 2 = 0 -> h mod 2 = 0 -> forall fmts o f d flow,
  video_of o f w h d -> bytes_ok d -> labelled o src flow origin sync rate duration layout -> In f formats -> Forall (fun g => In g formats) fmts ->
  exists o' d', np_converts u5 now fuel noise o fmts = Ok o' /\ video_of o' (last_of f fmts) w h d' /\ bytes_ok d' /\
    labelled o' src (flow_after u5 f flow fmts) origin sync rate duration layout.
Proof. exact chain. Qed.
Print Assumptions C64_chain.
Example C64_chain_ex :
  rbind (np_converts nx_u5 99 4 nx_noise (nx_video U8_422 2 2 [10; 20; 30; 40; 1; 2; 3; 4]) [S16_422_10BIT; S16_422_10BIT; v210; YUYV]) (fun o => Ok (map_res (getattr o) [$"cog_frame_format"; $"flow_id"; $"sync_timestamp"])) =
    Ok (Ok [PInt YUYV; PUuid (1000 * (1000 * (2000 + S16_422_10BIT) + v210) + YUYV); PTime 40]) /\
  flow_after nx_u5 U8_422 2 [S16_422_10BIT; S16_422_10BIT; v210; YUYV] = 1000 * (1000 * (2000 + S16_422_10BIT) + v210) + YUYV /\ last_of U8_422 [S16_422_10BIT; S16_422_10BIT; v210; YUYV] = YUYV.
Proof. vm_compute. repeat split. Qed.

(** Between formats of the same kind every sample is kept, and the ratio of the two grains is infinite. *)
Theorem C64_same_kind : forall u5 now fuel noise o f f' k w h d src flow origin sync rate duration layout,
  video_of o f w h d -> bytes_ok d -> labelled o src flow origin sync rate duration layout -> In (f, k) kinds -> In (f', k) kinds -> f' <> f ->
  0 <= w -> 0 <= h -> w mod 2 = 0 -> h mod 2 = 0 -> (4 <= fuel)%nat ->
  exists o' d', np_convert u5 now fuel noise o f' = Ok o' /\ video_of o' f' w h d' /\
    (forall n x y, In n (names (k_model k)) -> 0 <= x < comp_w k n w -> 0 <= y < comp_h k n h -> sample (shown f' w h d') n x y = sample (shown f w h d) n x y) /\
    (in_order f k = in_order f' k -> 0 < w -> 0 < h -> forall rwa rwb max, max <> Some 0 -> compute_psnr now rwa rwb max o o' = (o, o', Ok [PvInf; PvInf; PvInf])).
Proof. exact converted_kind. Qed.
Print Assumptions C64_same_kind.
Example C64_same_kind_ex :
  let o := nx_video YUYV 2 2 [10; 1; 20; 3; 30; 2; 40; 4] in
  nx_then (np_convert nx_u5 99 4 nx_noise o U8_422) = Ok (Some [10; 20; 30; 40; 1; 2; 3; 4], [PInt U8_422; PUuid (2000 + U8_422); PTime 30; PTime 99; PInt 1]) /\
  rbind (np_convert nx_u5 99 4 nx_noise o U8_422) (fun o' => snd (compute_psnr 9 false false None o o')) = Ok [PvInf; PvInf; PvInf].
Proof. vm_compute. split; reflexivity. Qed.

(** Unpacking v210 and packing it again gives the payload that there was, if the bits that are no samples are zero. *)
Theorem C64_unpacked : forall u5 now fuel noise o w h d src flow origin sync rate duration layout,
  video_of o v210 w h d -> bytes_ok d -> labelled o src flow origin sync rate duration layout -> v210_clean (shown v210 w h d) -> (4 <= fuel)%nat ->
  0 <= w -> 0 <= h -> w mod 2 = 0 -> h mod 2 = 0 ->
  exists o', np_converts u5 now fuel noise o [S16_422_10BIT; v210] = Ok o' /\ video_of o' v210 w h d /\ labelled o' src (u5 (u5 flow S16_422_10BIT) v210) origin sync rate duration layout.
Proof. exact unpacked. Qed.
Print Assumptions C64_unpacked.
Example C64_unpacked_ex :
  let d := [4; 160; 192; 0; 80; 0; 0; 0] ++ repeat 0 120 in
  rbind (np_converts nx_u5 99 4 nx_noise (nx_video v210 2 1 d) [S16_422_10BIT; v210]) (fun o => Ok (o_data o)) = Ok (Some d) /\
  let d := repeat 255 128 in
  rbind (np_converts nx_u5 99 4 nx_noise (nx_video v210 2 1 d) [S16_422_10BIT; v210]) (fun o => Ok (o_data o)) = Ok (Some ([255; 255; 255; 63; 255; 3; 0; 0] ++ repeat 0 120)).
Proof. vm_compute. split; reflexivity. Qed.

(** What conversions are not known for is not converted. *)
Theorem C64_refused : forall u5 now fuel noise o f f', getattr o $"cog_frame_format" = Ok (PInt f) -> f' <> f -> ~ In f formats \/ ~ In f' formats -> forall o', np_convert u5 now fuel noise o f' <> Ok o'.
Proof. exact refused. Qed.
Print Assumptions C64_refused.
Example C64_refused_ex : ~ In RGBA formats /\ np_convert nx_u5 99 4 nx_noise (nx_video U8_422 2 2 [10; 20; 30; 40; 1; 2; 3; 4]) RGBA = Err EUnsupported /\
  np_convert nx_u5 99 4 nx_noise (nx_or (kw_video 5 nx_kw RGBA 2 2 1 (ABytes (repeat 7 16)))) RGB = Err EUnsupported.
Proof. split; [vm_compute; intuition discriminate|]. vm_compute. split; reflexivity. Qed.

(** Assigning a payload: the metadata stays, and bytes and length tell it. *)
Theorem C64_assigned : forall o f w h d b, video_of o f w h d -> In f formats -> 0 <= w -> 0 <= h -> zlen b = size_for_format f w h ->
  np_set_data (ABytes b) o = (mkO KVideo (o_meta o) (Some b) None, Ok tt) /\ video_of (mkO KVideo (o_meta o) (Some b) None) f w h b /\
  np_bytes_of (mkO KVideo (o_meta o) (Some b) None) = b /\ np_length (mkO KVideo (o_meta o) (Some b) None) = size_for_format f w h.
Proof. exact assigned. Qed.
Print Assumptions C64_assigned.
Example C64_assigned_ex :
  let r := np_set_data (ABytes [1; 2; 3; 4; 5; 6; 7; 8]) (nx_video YUYV 2 2 [10; 1; 20; 3; 30; 2; 40; 4]) in
  nx_then (rbind (snd r) (fun _ => Ok (fst r))) = Ok (Some [1; 2; 3; 4; 5; 6; 7; 8], [PInt YUYV; PUuid 2; PTime 30; PTime 50; PInt 1]) /\
  nx_then (np_convert nx_u5 99 4 nx_noise (fst r) U8_422) = Ok (Some [1; 3; 5; 7; 2; 6; 4; 8], [PInt U8_422; PUuid (2000 + U8_422); PTime 30; PTime 99; PInt 1]).
Proof. vm_compute. split; reflexivity. Qed.

(** A grain whose payload is awaited is without it until then, and afterwards like one made with it. *)
Theorem C64_awaited : forall now src flow origin sync creation rate duration f w h layout, In f formats -> member frame_layouts layout = true -> 0 <= w -> 0 <= h ->
  0 < snd rate -> Z.gcd (fst rate) (snd rate) = 1 -> 0 < snd duration -> Z.gcd (fst duration) (snd duration) = 1 ->
  exists m, let o := mkO KVideo m None (Some 0) in
    np_kw now (mkKw (Some src) (Some flow) (Some origin) (Some sync) creation rate duration) f w h layout AWait = Ok o /\
    labelled o src flow origin sync rate duration layout /\ np_bytes_of o = [] /\ np_length o = 0 /\ np_await None o = (mkO KVideo m None None, Err EType) /\
    forall d, zlen d = size_for_format f w h ->
      np_await (Some d) o = (mkO KVideo m (Some d) None, Ok tt) /\ video_of (mkO KVideo m (Some d) None) f w h d /\ labelled (mkO KVideo m (Some d) None) src flow origin sync rate duration layout /\
      np_await None (mkO KVideo m (Some d) None) = (mkO KVideo m (Some d) None, Ok tt).
Proof. exact waiting. Qed.
Print Assumptions C64_awaited.
Example C64_awaited_ex : nx_then (rbind (np_kw 5 nx_kw U8_422 2 2 1 AWait) (fun o => let r := np_await (Some [1; 2; 3; 4; 5; 6; 7; 8]) o in rbind (snd r) (fun _ => Ok (fst r)))) =
  Ok (Some [1; 2; 3; 4; 5; 6; 7; 8], [PInt U8_422; PUuid 2; PTime 30; PTime 50; PInt 1]).
Proof. vm_compute. reflexivity. Qed.

(** None is not a payload; an awaitable takes the place of the payload, and there is nothing to convert then. *)
Theorem C64_not_assigned : forall o f w h d, video_of o f w h d -> o_wait o = None ->
  np_set_data ANone o = (o, Err EType) /\
  let o' := fst (np_set_data AWait o) in snd (np_set_data AWait o) = Ok tt /\ get_data o' = Ok None /\ np_bytes_of o' = [] /\ np_length o' = 0 /\ o_meta o' = o_meta o /\
  forall u5 now fuel noise f', f' <> f -> exists e, np_convert u5 now fuel noise o' f' = Err e.
Proof. exact not_assigned. Qed.
Print Assumptions C64_not_assigned.
Example C64_not_assigned_ex : let o := nx_video U8_422 2 2 [10; 20; 30; 40; 1; 2; 3; 4] in o_wait o = None /\ np_convert nx_u5 99 4 nx_noise (fst (np_set_data AWait o)) UYVY = Err EAttr.
Proof. vm_compute. split; reflexivity. Qed.

(** A grain of numpy arrays made of a grain whose payload is awaited does not wait for it: it has an empty payload, and arrays that are not within that. *)
Theorem C64_pending_refuted : exists o n v, kw_video 5 nx_kw U8_422 2 2 1 AWait = Ok o /\ np_of 9 o = Ok n /\ o_data n = Some [] /\ o_wait n = None /\
  np_arrays n = Ok v /\ map (nv_array v) (nv_views v) = [Err EIndex; Err EIndex; Err EIndex].
Proof. eexists. eexists. eexists. split; [vm_compute; reflexivity|]. split; [vm_compute; reflexivity|]. split; [vm_compute; reflexivity|]. split; [vm_compute; reflexivity|]. split; vm_compute; reflexivity. Qed.
Print Assumptions C64_pending_refuted.

(** asformat is the grain itself or the conversion. The arrays that compute_psnr looks at are those of the grain of numpy arrays. *)
Theorem C64_asformat : forall u5 now fuel noise o f w h d, video_of o f w h d ->
  np_asformat u5 now fuel noise o f = Ok (true, o) /\
  (forall f' o', f' <> f -> np_convert u5 now fuel noise o f' = Ok o' -> np_asformat u5 now fuel noise o f' = Ok (false, o')) /\
  numpy_video now o = rbind (np_of now o) np_arrays.
Proof. exact as_format_or. Qed.
Print Assumptions C64_asformat.
Example C64_asformat_ex : let o := nx_video U8_422 2 2 [10; 20; 30; 40; 1; 2; 3; 4] in
  np_asformat nx_u5 99 4 nx_noise o U8_422 = Ok (true, o) /\ rbind (np_asformat nx_u5 99 4 nx_noise o UYVY) (fun r => Ok (fst r, o_data (snd r))) = Ok (false, Some [1; 10; 3; 20; 2; 30; 4; 40]).
Proof. vm_compute. split; reflexivity. Qed.

(** "Other parameters identical" is not so for time labels and the creation time: a conversion to another format has none of the former and a new latter. *)
Theorem C64_labels_refuted : nx_labels (Ok nx_labelled) = Ok 1 /\ nx_labels (np_convert nx_u5 99 4 nx_noise nx_labelled U8_422) = Ok 1 /\ nx_labels (np_convert nx_u5 99 4 nx_noise nx_labelled UYVY) = Ok 0 /\
  rbind (np_convert nx_u5 99 4 nx_noise nx_labelled UYVY) (fun o => getattr o $"creation_timestamp") = Ok (PTime 99) /\ getattr nx_labelled $"creation_timestamp" = Ok (PTime 50).
Proof. vm_compute. repeat split. Qed.
Print Assumptions C64_labels_refuted.
