(** What the peak signal to noise ratio should be: ten times the logarithm of the squared peak over the mean squared difference. *)
From Coq Require Import String.
From Verif Require Import Base CogEnums VideoLayout LayoutSpec PatternSpec PyValue GrainObj GrainCopySpec NpView NpSpec NpAudio NpAudioSpec Psnr.
Local Open Scope list_scope.

(** [count] values with the sum [noise] of squared differences. [PvLog n d] stands for 10 * log10 (n / d). *)
Definition is_psnr (peak count noise : Z) (v : pval) : Prop :=
  (count = 0 -> v = PvNan) /\ (count <> 0 -> noise = 0 -> v = PvInf) /\
  (count <> 0 -> noise <> 0 -> exists n d, v = PvLog n d /\ 0 < n /\ 0 < d /\ n * noise = peak * peak * count * d).
(** The order of ratios; infinity is the best. *)
Definition no_worse (v v' : pval) : Prop :=
  match v, v' with
  | PvInf, PvInf | PvInf, PvLog _ _ => True
  | PvLog n d, PvLog n' d' => n' * d <= n * d'
  | PvNan, PvNan => True
  | _, _ => False
  end.
Definition sum (n : Z) (f : Z -> Z) : Z := fold_right Z.add 0 (map f (between 0 n)).
Definition peak_or (max : option Z) (peak : Z) : Z := match max with Some m => m | None => peak end.

(** A video grain of a format and a size with its payload, and the picture it shows. *)
Record video_of (o : gobj) (f w h : Z) (d : bytes) : Prop := {
  vo_class : o_class o = KVideo;
  vo_faithful : faithful o;
  vo_type : getattr o $"grain_type" = Ok (PStr $"video");
  vo_format : getattr o $"cog_frame_format" = Ok (PInt f);
  vo_width : getattr o $"width" = Ok (PInt w);
  vo_height : getattr o $"height" = Ok (PInt h);
  vo_components : in_section $"cog_frame" $"components" o = Ok (PList (map comp_dict (components_for_format f w h)));
  vo_data : get_data o = Ok (Some d);
  vo_length : zlen d = size_for_format f w h }.
Definition shown (f w h : Z) (d : bytes) : ngrain :=
  let item := match np_itemsize f with Ok item => item | Err _ => 1 end in
  mkNg f w h item (zlen d / item) (fun i => little_endian (sample_bytes item d i)).
(** The components in the order they have in a pixel, or as planes. *)
Definition in_order (f : Z) (k : kind) : list cname := if existsb (Z.eqb f) [BGRx; xBGR] then [CB; CG; CR] else names (k_model k).
Definition squares (k : kind) (w h : Z) (a b : ngrain) (n n' : cname) : Z :=
  sum (comp_h k n h) (fun y => sum (comp_w k n w) (fun x => (sample a n x y - sample b n' x y) * (sample a n x y - sample b n' x y))).

(** An audio grain with its payload. *)
Record audio_of (o : gobj) (f samples channels : Z) (d : bytes) : Prop := {
  ao_class : o_class o = KAudio;
  ao_faithful : faithful o;
  ao_type : getattr o $"grain_type" = Ok (PStr $"audio");
  ao_format : getattr o $"format" = Ok (PInt f);
  ao_samples : getattr o $"samples" = Ok (PInt samples);
  ao_channels : getattr o $"channels" = Ok (PInt channels);
  ao_data : get_data o = Ok (Some d);
  ao_length : zlen d = size_for_audio_format f channels samples;
  ao_bytes : bytes_ok d }.
(** Whole numbers: the format, its arrangement, the bytes of a sample and how many of them count. *)
Definition whole_table : list (Z * (arrangement * Z * Z)) :=
  [(0x0, (Planes, 2, 2)); (0x1, (Pairs, 2, 2)); (0x2, (Interleaved, 2, 2)); (0x8, (Planes, 4, 4)); (0x9, (Pairs, 4, 4)); (0xa, (Interleaved, 4, 4));
   (0x5, (Pairs, 3, 3)); (0x6, (Interleaved, 3, 3)); (0x4, (Planes, 4, 3))].
(** Samples of 24 bits are taken for the upper part of 32. *)
Definition scale (low : Z) : Z := if low =? 3 then 256 else 1.
Definition heard (a : arrangement) (size low samples channels : Z) (d : bytes) (ch i : Z) : Z :=
  signed low (zfirst low (sample_bytes size d (position a channels samples ch i))).
(** Floating point numbers as multiples of the least one above zero: single and double precision. *)
Definition float_table : list (Z * (arrangement * Z * (Z * Z))) :=
  [(0x18, (Planes, 4, (23, 8))); (0x19, (Pairs, 4, (23, 8))); (0x1a, (Interleaved, 4, (23, 8)));
   (0x2c, (Planes, 8, (52, 11))); (0x2d, (Pairs, 8, (52, 11))); (0x2e, (Interleaved, 8, (52, 11)))].
(** [bits] is (-1)^s * (m, with an implicit leading one unless the exponent is zero) * 2^exponent. *)
Definition is_float (mant exp bits v : Z) : Prop :=
  exists s e m, (s = 0 \/ s = 1) /\ 0 <= e < 2 ^ exp - 1 /\ 0 <= m < 2 ^ mant /\ bits = (s * 2 ^ exp + e) * 2 ^ mant + m /\
    v = (1 - 2 * s) * (if e =? 0 then m else (2 ^ mant + m) * 2 ^ (e - 1)).
(** All floating point numbers, infinities and NaN among them. *)
Inductive fval := FNum (z : Z) | FInf (minus : bool) | FNan.
Definition is_fval (mant exp bits : Z) (v : fval) : Prop :=
  match v with
  | FNum z => is_float mant exp bits z
  | FInf minus => bits = ((if minus then 1 else 0) * 2 ^ exp + (2 ^ exp - 1)) * 2 ^ mant
  | FNan => exists s m, (s = 0 \/ s = 1) /\ 0 < m < 2 ^ mant /\ bits = (s * 2 ^ exp + (2 ^ exp - 1)) * 2 ^ mant + m
  end.
(** They have no difference: one is NaN, or both are the same infinity. *)
Definition no_difference (x y : fval) : Prop := x = FNan \/ y = FNan \/ exists m, x = FInf m /\ y = FInf m.
Definition both_numbers (x y : fval) : Prop := exists z z', x = FNum z /\ y = FNum z'.
