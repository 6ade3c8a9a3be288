(** C61: the peak signal to noise ratio of two grains. *)
From Coq Require Import String.
From Verif Require Import Base GsfPrim CogEnums VideoLayout LayoutSpec PatternSpec PyValue GrainObj BuildSpec GrainCopySpec NpView NpSpec NpAudio NpAudioSpec
  Psnr PsnrSpec PsnrProofs PsnrMain PsnrAudio PsnrSpecial PsnrMade PsnrExample PsnrLimits.
Local Open Scope list_scope.

(** One ratio for each component: that of the peak and the mean squared difference of its samples. The grains stay as they are. *)
Theorem C61_video now rwa rwb max a b f f' k k' w h d d' : video_of a f w h d -> video_of b f' w h d' -> In (f, k) kinds -> In (f', k') kinds ->
  k_hs k = k_hs k' -> k_vs k = k_vs k' -> 0 <= w -> 0 <= h -> max <> Some 0 ->
  exists vs, compute_psnr now rwa rwb max a b = (a, b, Ok vs) /\
    Forall2 (fun nn v => is_psnr (peak_or max (2 ^ k_depth k - 1)) (comp_w k (fst nn) w * comp_h k (fst nn) h)
                           (squares k w h (shown f w h d) (shown f' w h d') (fst nn) (snd nn)) v) (combine (in_order f k) (in_order f' k')) vs.
Proof. exact (video_ratio now rwa rwb max a b f f' k k' w h d d'). Qed.
Print Assumptions C61_video.
Example C61_video_ex :
  ratio (compute_psnr 9 false false None (ex_video U8_422 2 2 [10; 20; 30; 40; 1; 2; 3; 4]) (ex_video U8_422 2 2 [10; 22; 30; 41; 1; 2; 4; 4])) = Ok [PvLog 260100 5; PvInf; PvLog 130050 1] /\
  ratio (compute_psnr 9 false false (Some 100) (ex_video U8_422 2 2 [10; 20; 30; 40; 1; 2; 3; 4]) (ex_video UYVY 2 2 [1; 10; 3; 22; 2; 30; 4; 41])) = Ok [PvLog 40000 5; PvInf; PvInf] /\
  let a := shown U8_422 2 2 [10; 20; 30; 40; 1; 2; 3; 4] in let b := shown UYVY 2 2 [1; 10; 3; 22; 2; 30; 4; 41] in
  squares (yuv422 8) 2 2 a b CY CY = 5 /\ squares (yuv422 8) 2 2 a b CV CV = 0.
Proof. vm_compute. repeat split. Qed.

(** Infinite exactly for pictures with the same samples. *)
Theorem C61_video_same now rwa rwb max a b f f' k k' w h d d' : video_of a f w h d -> video_of b f' w h d' -> In (f, k) kinds -> In (f', k') kinds ->
  k_hs k = k_hs k' -> k_vs k = k_vs k' -> in_order f k = in_order f' k' -> 0 < w / k_hs k -> 0 < h / k_vs k -> max <> Some 0 ->
  exists vs, compute_psnr now rwa rwb max a b = (a, b, Ok vs) /\ List.length vs = 3%nat /\
    (Forall (eq PvInf) vs <->
     forall n x y, In n (names (k_model k)) -> 0 <= x < comp_w k n w -> 0 <= y < comp_h k n h -> sample (shown f w h d) n x y = sample (shown f' w h d') n x y).
Proof. exact (video_same now rwa rwb max a b f f' k k' w h d d'). Qed.
Print Assumptions C61_video_same.
(** The better ratio is that of the picture that differs less, whatever the peak. *)
Theorem C61_video_order now rwa rwb max r a b f f' k k' w h dr da db : video_of r f w h dr -> video_of a f' w h da -> video_of b f' w h db -> In (f, k) kinds -> In (f', k') kinds ->
  k_hs k = k_hs k' -> k_vs k = k_vs k' -> 0 < w / k_hs k -> 0 < h / k_vs k -> 0 <= w -> 0 <= h -> max <> Some 0 ->
  exists vs vs', compute_psnr now rwa rwb max r a = (r, a, Ok vs) /\ compute_psnr now rwa rwb max r b = (r, b, Ok vs') /\
    forall i v v' n n', nth_error vs i = Some v -> nth_error vs' i = Some v' -> nth_error (in_order f k) i = Some n -> nth_error (in_order f' k') i = Some n' ->
      (no_worse v v' <-> squares k w h (shown f w h dr) (shown f' w h da) n n' <= squares k w h (shown f w h dr) (shown f' w h db) n n').
Proof. exact (video_order now rwa rwb max r a b f f' k k' w h dr da db). Qed.
Print Assumptions C61_video_order.
(** The order of the pictures does not matter, if they have one depth or the peak is given. *)
Theorem C61_video_swapped now rwa rwb max a b f f' k k' w h d d' : video_of a f w h d -> video_of b f' w h d' -> In (f, k) kinds -> In (f', k') kinds ->
  k_hs k = k_hs k' -> k_vs k = k_vs k' -> 0 <= w -> 0 <= h -> max <> Some 0 -> max <> None \/ k_depth k = k_depth k' ->
  exists vs vs', compute_psnr now rwa rwb max a b = (a, b, Ok vs) /\ compute_psnr now rwb rwa max b a = (b, a, Ok vs') /\ Forall2 (fun v v' => no_worse v v' /\ no_worse v' v) vs vs'.
Proof. exact (video_swapped now rwa rwb max a b f f' k k' w h d d'). Qed.
Print Assumptions C61_video_swapped.
Example C61_video_more_ex :
  let a := ex_video S16_444_10BIT 1 2 [1; 2; 3; 0; 5; 0; 6; 0; 7; 0; 8; 0] in let b := ex_video S16_444_10BIT 1 2 [0; 2; 3; 0; 5; 0; 6; 0; 7; 0; 8; 0] in let c := ex_video S16_444_10BIT 1 2 [0; 3; 3; 0; 5; 0; 6; 0; 7; 0; 8; 0] in
  ratio (compute_psnr 9 false false None a a) = Ok [PvInf; PvInf; PvInf] /\ ratio (compute_psnr 9 false false None a b) = Ok [PvLog (1023 * 1023 * 2) 1; PvInf; PvInf] /\
  ratio (compute_psnr 9 false false None a c) = Ok [PvLog (1023 * 1023 * 2) (255 * 255); PvInf; PvInf] /\ ratio (compute_psnr 9 false false None c a) = ratio (compute_psnr 9 false false None a c) /\
  no_worse (PvLog (1023 * 1023 * 2) 1) (PvLog (1023 * 1023 * 2) (255 * 255)) /\ ~ no_worse (PvLog (1023 * 1023 * 2) (255 * 255)) (PvLog (1023 * 1023 * 2) 1).
Proof. split; [vm_compute; reflexivity|]. split; [vm_compute; reflexivity|]. split; [vm_compute; reflexivity|]. split; [vm_compute; reflexivity|]. split; [intros K; vm_compute in K; discriminate K|]. intros K. apply K. vm_compute. reflexivity. Qed.

(** One ratio for each channel of whole numbers. Samples of 24 bits are shifted up and so is their peak, which is as if neither was. The grains stay
    as they are, except for samples of 24 bits in four bytes (format 4), which are shifted up in the payloads of the two grains. *)
Theorem C61_audio now rwa rwb max a b f ar size low s c d d' : audio_of a f s c d -> audio_of b f s c d' -> In (f, (ar, size, low)) whole_table -> f <> 4 \/ rwa = true /\ rwb = true ->
  0 <= s -> 0 <= c -> max <> Some 0 ->
  exists a' b' vs, compute_psnr now rwa rwb max a b = (a', b', Ok vs) /\
    Forall2 (fun ch v =>
      let diff i := heard ar size low s c d ch i - heard ar size low s c d' ch i in
      is_psnr (peak_or max (scale low * 2 ^ (8 * low - 1))) s (sum s (fun i => scale low * diff i * (scale low * diff i))) v /\
      (max = None -> is_psnr (2 ^ (8 * low - 1)) s (sum s (fun i => diff i * diff i)) v)) (between 0 c) vs /\
    (f <> 4 -> a' = a /\ b' = b) /\
    (f = 4 -> o_meta a' = o_meta a /\ o_meta b' = o_meta b /\
      forall o' e, (o' = a' /\ e = d) \/ (o' = b' /\ e = d') -> exists e', o_data o' = Some e' /\ zlen e' = zlen e /\
        forall p, 0 <= p < zlen e / 4 -> sample_bytes 4 e' p = 0 :: zfirst 3 (sample_bytes 4 e p)).
Proof. exact (audio_ratio now rwa rwb max a b f ar size low s c d d'). Qed.
Print Assumptions C61_audio.
Theorem C61_audio_same now rwa rwb a b f ar size low s c d d' : audio_of a f s c d -> audio_of b f s c d' -> In (f, (ar, size, low)) whole_table -> f <> 4 \/ rwa = true /\ rwb = true ->
  0 < s -> 0 <= c ->
  exists vs, snd (compute_psnr now rwa rwb None a b) = Ok vs /\ zlen vs = c /\
    (Forall (eq PvInf) vs <-> forall ch i, 0 <= ch < c -> 0 <= i < s -> heard ar size low s c d ch i = heard ar size low s c d' ch i).
Proof. exact (audio_same now rwa rwb a b f ar size low s c d d'). Qed.
Print Assumptions C61_audio_same.
Example C61_audio_ex :
  ratio (compute_psnr 9 false false None (ex_audio 2 2 2 [1; 0; 2; 0; 255; 255; 0; 128]) (ex_audio 2 2 2 [1; 0; 2; 0; 255; 255; 2; 128])) = Ok [PvInf; PvLog (2 ^ 30 * 2) 4] /\
  ratio (compute_psnr 9 false false None (ex_audio 6 1 1 [1; 0; 2]) (ex_audio 6 1 1 [2; 0; 2])) = Ok [PvLog (2 ^ 62) (2 ^ 16)] /\
  heard Interleaved 3 3 1 1 [1; 0; 2] 0 0 = 0x20001 /\ heard Interleaved 2 2 2 2 [1; 0; 2; 0; 255; 255; 0; 128] 1 1 = - 2 ^ 15.
Proof. vm_compute. repeat split. Qed.

(** Floating point: as multiples of the least number above zero. *)
Theorem C61_float now rwa rwb max a b f ar size mant exp s c d d' (u v : Z -> Z -> Z) : audio_of a f s c d -> audio_of b f s c d' -> In (f, (ar, size, (mant, exp))) float_table ->
  0 <= s -> 0 <= c -> max <> Some 0 ->
  (forall ch i, 0 <= ch < c -> 0 <= i < s -> is_float mant exp (little_endian (sample_bytes size d (position ar c s ch i))) (u ch i) /\
                                             is_float mant exp (little_endian (sample_bytes size d' (position ar c s ch i))) (v ch i)) ->
  exists vs, compute_psnr now rwa rwb max a b = (a, b, Ok vs) /\
    Forall2 (fun ch r => is_psnr (peak_or max 1 * 2 ^ (2 ^ (exp - 1) - 2 + mant)) s (sum s (fun i => (u ch i - v ch i) * (u ch i - v ch i))) r) (between 0 c) vs.
Proof. exact (float_ratio now rwa rwb max a b f ar size mant exp s c d d' u v). Qed.
Print Assumptions C61_float.
(** 1.0 and 0.5: a quarter of the squared peak. *)
Example C61_float_ex : ratio (compute_psnr 9 true true None (ex_audio 0x1a 1 1 [0; 0; 128; 63]) (ex_audio 0x1a 1 1 [0; 0; 0; 63])) = Ok [PvLog (2 ^ 149 * 2 ^ 149) (2 ^ 148 * 2 ^ 148)] /\
  is_float 23 8 0x3f800000 (2 ^ 149) /\ is_float 23 8 0x3f000000 (2 ^ 148).
Proof.
  split; [vm_compute; reflexivity|]. split; [exists 0, 127, 0|exists 0, 126, 0]; (split; [left; reflexivity|]; split; [split; [vm_compute; discriminate|reflexivity]|]; split; [split; [discriminate|reflexivity]|]; split; vm_compute; reflexivity).
Qed.

(** Any floating point samples: a channel with samples that have no difference has no ratio (NaN); otherwise one that is infinite in only one of the
    grains, or has another sign there, is an error of the whole. *)
Theorem C61_special now rwa rwb max a b f ar size mant exp s c d d' (u v : Z -> Z -> fval) : audio_of a f s c d -> audio_of b f s c d' -> In (f, (ar, size, (mant, exp))) float_table ->
  0 <= s -> 0 <= c -> max <> Some 0 ->
  (forall ch i, 0 <= ch < c -> 0 <= i < s -> is_fval mant exp (little_endian (sample_bytes size d (position ar c s ch i))) (u ch i) /\
                                             is_fval mant exp (little_endian (sample_bytes size d' (position ar c s ch i))) (v ch i)) ->
  let undefined ch := exists i, 0 <= i < s /\ no_difference (u ch i) (v ch i) in
  let endless ch := ~ undefined ch /\ exists i, 0 <= i < s /\ ~ both_numbers (u ch i) (v ch i) in
  ((exists ch, 0 <= ch < c /\ endless ch) -> compute_psnr now rwa rwb max a b = (a, b, Err EValue)) /\
  ((forall ch, 0 <= ch < c -> ~ endless ch) ->
    exists vs, compute_psnr now rwa rwb max a b = (a, b, Ok vs) /\
      Forall2 (fun ch r => (undefined ch -> r = PvNan) /\
        (forall x y, (forall i, 0 <= i < s -> u ch i = FNum (x i) /\ v ch i = FNum (y i)) ->
          is_psnr (peak_or max 1 * 2 ^ (2 ^ (exp - 1) - 2 + mant)) s (sum s (fun i => (x i - y i) * (x i - y i))) r)) (between 0 c) vs).
Proof. exact (special_ratio now rwa rwb max a b f ar size mant exp s c d d' u v). Qed.
Print Assumptions C61_special.
Example C61_special_ex :
  let nan := [1; 0; 128; 127] in let inf := [0; 0; 128; 127] in let one := [0; 0; 128; 63] in
  ratio (compute_psnr 9 true true None (ex_audio 0x1a 2 2 (nan ++ inf ++ inf ++ one)) (ex_audio 0x1a 2 2 (one ++ inf ++ one ++ one))) = Ok [PvNan; PvNan] /\
  ratio (compute_psnr 9 true true None (ex_audio 0x1a 2 2 (nan ++ inf ++ one ++ one)) (ex_audio 0x1a 2 2 (one ++ [0; 0; 128; 255] ++ one ++ one))) = Err EValue /\
  is_fval 23 8 (little_endian nan) FNan /\ is_fval 23 8 (little_endian inf) (FInf false).
Proof. split; [vm_compute; reflexivity|]. split; [vm_compute; reflexivity|]. split; [|vm_compute; reflexivity]. exists 0, 1. split; [left; reflexivity|]. split; [split; reflexivity|]. vm_compute. reflexivity. Qed.

(** The grains made by the constructors are such grains. *)
Theorem C61_made_video now k f kd w h layout d o : In (f, kd) kinds -> kw_video now k f w h layout (ABytes d) = Ok o -> zlen d = size_for_format f w h -> video_of o f w h d.
Proof. exact (made_video now k f kd w h layout d o). Qed.
Print Assumptions C61_made_video.
Theorem C61_made_audio now k f s c rate d o : member audio_formats f = true -> kw_audio now k f s c rate (ABytes d) = Ok o -> zlen d = size_for_audio_format f c s -> bytes_ok d -> audio_of o f s c d.
Proof. exact (made_audio now k f s c rate d o). Qed.
Print Assumptions C61_made_audio.
Example C61_made_ex : is_ok (kw_video 5 ex_psnr_kw U8_422 2 2 0 (ABytes (zeros 8))) = true /\ size_for_format U8_422 2 2 = 8 /\ is_ok (kw_audio 5 ex_psnr_kw 6 1 1 48000 (ABytes [1; 0; 2])) = true /\ size_for_audio_format 6 1 1 = 3.
Proof. vm_compute. repeat split. Qed.

(** What cannot be measured. *)
Theorem C61_refused now rwa rwb max a b ta tb : getattr a $"grain_type" = Ok ta -> getattr b $"grain_type" = Ok tb ->
  (py_eq ta tb = false \/ ta <> PStr $"video" /\ ta <> PStr $"audio") -> compute_psnr now rwa rwb max a b = (a, b, Err EAttr).
Proof. exact (psnr_refused now rwa rwb max a b ta tb). Qed.
Print Assumptions C61_refused.
Theorem C61_video_refused now rwa rwb max a b f f' w h w' h' d d' k k' : video_of a f w h d -> video_of b f' w' h' d' -> In (f, k) kinds -> In (f', k') kinds -> w <> w' \/ h <> h' ->
  compute_psnr now rwa rwb max a b = (a, b, Err EAttr).
Proof. exact (video_refused now rwa rwb max a b f f' w h w' h' d d' k k'). Qed.
Print Assumptions C61_video_refused.
Theorem C61_audio_refused now rwa rwb max a b f f' s c s' c' d d' : audio_of a f s c d -> audio_of b f' s' c' d' ->
  (c <> c' \/ s <> s' -> compute_psnr now rwa rwb max a b = (a, b, Err EAttr)) /\
  (c = c' -> s = s' -> f <> f' -> compute_psnr now rwa rwb max a b = (a, b, Err EUnsupported)).
Proof. exact (audio_refused now rwa rwb max a b f f' s c s' c' d d'). Qed.
Print Assumptions C61_audio_refused.
(** 24 bits in four bytes: not with a payload of bytes. If only the second grain has one, the first is changed nevertheless. *)
Theorem C61_low_refused now rwa rwb max a b s c d d' : audio_of a 4 s c d -> audio_of b 4 s c d' -> 0 <= s -> 0 <= c ->
  (rwa = false -> compute_psnr now rwa rwb max a b = (a, b, Err EValue)) /\
  (rwa = true -> rwb = false -> compute_psnr now rwa rwb max a b = (mkO KAudio (o_meta a) (Some (shift_up d)) (o_wait a), b, Err EValue)).
Proof. exact (low_refused now rwa rwb max a b s c d d'). Qed.
Print Assumptions C61_low_refused.
Example C61_refused_ex :
  ratio (compute_psnr 9 true true None (ex_video U8_444 1 1 [0; 0; 0]) (ex_audio 2 1 1 [0; 0])) = Err EAttr /\
  ratio (compute_psnr 9 true true None (ex_video U8_444 1 1 [0; 0; 0]) (ex_video U8_444 1 2 (zeros 6))) = Err EAttr /\
  ratio (compute_psnr 9 true true None (ex_audio 1 1 1 (zeros 4)) (ex_audio 2 1 1 [0; 0])) = Err EUnsupported /\
  (let r := compute_psnr 9 true false None (ex_audio 4 1 1 [1; 0; 2; 0]) (ex_audio 4 1 1 [1; 0; 2; 0]) in ratio r = Err EValue /\ payload_after r = Some [0; 1; 0; 2]).
Proof. vm_compute. repeat split. Qed.

(** Measuring samples of 24 bits in four bytes changes the grains: doing it twice gives something else. *)
Theorem C61_twice_refuted : ~ (forall now a b s c d d', audio_of a 4 s c d -> audio_of b 4 s c d' ->
  let '(a', b', v) := compute_psnr now true true None a b in snd (compute_psnr now true true None a' b') = v).
Proof. exact twice_refuted. Qed.
Print Assumptions C61_twice_refuted.
(** Pictures packed in words of three samples (v210) have no ratios, whatever they show. *)
Theorem C61_v210_refuted now rwa rwb max w h d d' a b : video_of a v210 w h d -> video_of b v210 w h d' -> 0 <= w -> 0 <= h -> compute_psnr now rwa rwb max a b = (a, b, Ok []).
Proof. exact (v210_refuted now rwa rwb max w h d d' a b). Qed.
Print Assumptions C61_v210_refuted.
Example C61_v210_ex : ratio (compute_psnr 9 true true None (ex_video v210 48 1 (zeros 128)) (ex_video v210 48 1 (repeat 1 128))) = Ok [].
Proof. vm_compute. reflexivity. Qed.
(** Components are paired by place, not by name; transparency is not measured; the peak is that of the first of two depths; different samplings are an
    error of numpy's; 64 bits have no peak; infinite samples are an error. *)
Theorem C61_limits_refuted :
  ratio (compute_psnr 9 true true None (ex_video RGB 1 1 [1; 2; 3]) (ex_video BGRx 1 1 [3; 2; 1; 0])) = Ok [PvLog 65025 4; PvInf; PvLog 65025 4] /\
  (forall n, In n [CR; CG; CB] -> sample (shown RGB 1 1 [1; 2; 3]) n 0 0 = sample (shown BGRx 1 1 [3; 2; 1; 0]) n 0 0) /\
  ratio (compute_psnr 9 true true None (ex_video RGBA 1 1 [1; 2; 3; 4]) (ex_video RGBA 1 1 [1; 2; 3; 200])) = Ok [PvInf; PvInf; PvInf] /\
  ratio (compute_psnr 9 true true None (ex_video U8_444 1 1 [0; 0; 0]) (ex_video S16_444_10BIT 1 1 [1; 0; 0; 0; 0; 0])) = Ok [PvLog 65025 1; PvInf; PvInf] /\
  ratio (compute_psnr 9 true true None (ex_video S16_444_10BIT 1 1 [1; 0; 0; 0; 0; 0]) (ex_video U8_444 1 1 [0; 0; 0])) = Ok [PvLog 1046529 1; PvInf; PvInf] /\
  ratio (compute_psnr 9 true true None (ex_video U8_444 4 1 (zeros 12)) (ex_video U8_422 4 1 (zeros 8))) = Err EValue /\
  ratio (compute_psnr 9 true true None (ex_audio 0xc 1 1 (zeros 8)) (ex_audio 0xc 1 1 (repeat 1 8))) = Err EType /\
  ratio (compute_psnr 9 true true None (ex_audio 0x1a 1 1 [0; 0; 128; 127]) (ex_audio 0x1a 1 1 [0; 0; 0; 63])) = Err EValue.
Proof. exact limits_refuted. Qed.
Print Assumptions C61_limits_refuted.
(** Payloads that are too short: the only sample there is stands for all the others; two of three are an error of numpy's, and pictures are read outside
    of their payload. *)
Theorem C61_short_refuted :
  ratio (compute_psnr 9 true true None (ex_audio 0 3 1 [1; 0; 2; 0; 3; 0]) (ex_audio 0 3 1 [1; 0])) = Ok [PvLog (2 ^ 30 * 3) 5] /\
  ratio (compute_psnr 9 true true None (ex_audio 0 3 1 [1; 0]) (ex_audio 0 3 1 [1; 0; 2; 0; 3; 0])) = Ok [PvLog (2 ^ 30 * 3) 5] /\
  ratio (compute_psnr 9 true true None (ex_audio 0 3 1 [1; 0; 2; 0; 3; 0]) (ex_audio 0 3 1 [1; 0; 2; 0])) = Err EValue /\
  ratio (compute_psnr 9 true true None (ex_video U8_444 1 1 [1; 2]) (ex_video U8_444 1 1 [1; 2; 3])) = Err EIndex.
Proof. vm_compute. repeat split. Qed.
Print Assumptions C61_short_refuted.
