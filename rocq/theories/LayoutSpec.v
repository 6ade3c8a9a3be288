(** What the buffers of new video and audio grains should look like. *)
From Verif Require Import Base CogEnums VideoLayout.

(** Consecutive pieces: each component starts where the one before ends, and the last ends at [stop]. *)
Fixpoint tiles (start : Z) (l : list vcomp) (stop : Z) : Prop :=
  match l with
  | [] => start = stop
  | c :: l => vc_offset c = start /\ 0 <= vc_length c /\ tiles (start + vc_length c) l stop
  end.

(** The pictures: three planes of [bytes]-byte values, the second and third with one value for [hsub] x [vsub] pixels;
    one plane with [n] bytes for each pixel; or lines made of 128-byte groups for 48 pixels. *)
Inductive picture := Planar (hsub vsub bytes : Z) | Packed (n : Z) | Grouped.

Definition pictures : list (Z * picture) :=
  [(U8_444, Planar 1 1 1); (U8_422, Planar 2 1 1); (U8_420, Planar 2 2 1); (U8_444_RGB, Planar 1 1 1);
   (S16_444_10BIT, Planar 1 1 2); (S16_422_10BIT, Planar 2 1 2); (S16_420_10BIT, Planar 2 2 2); (S16_444_10BIT_RGB, Planar 1 1 2);
   (S16_444_12BIT, Planar 1 1 2); (S16_422_12BIT, Planar 2 1 2); (S16_420_12BIT, Planar 2 2 2); (S16_444_12BIT_RGB, Planar 1 1 2);
   (S16_444, Planar 1 1 2); (S16_422, Planar 2 1 2); (S16_420, Planar 2 2 2); (S16_444_RGB, Planar 1 1 2);
   (S32_444, Planar 1 1 4); (S32_422, Planar 2 1 4); (S32_420, Planar 2 2 4); (S32_444_RGB, Planar 1 1 4);
   (YUYV, Packed 2); (UYVY, Packed 2); (RGB, Packed 3); (v216, Packed 4);
   (RGBx, Packed 4); (xRGB, Packed 4); (BGRx, Packed 4); (xBGR, Packed 4);
   (RGBA, Packed 4); (ARGB, Packed 4); (BGRA, Packed 4); (ABGR, Packed 4); (v210, Grouped)].

(** Width, height and bytes per line of each plane. *)
Definition planes (p : picture) (w h : Z) : list (Z * Z * Z) :=
  match p with
  | Planar hs vs b => [(w, h, w * b); (w / hs, h / vs, w / hs * b); (w / hs, h / vs, w / hs * b)]
  | Packed n => [(w, h, w * n)]
  | Grouped => [(w, h, (if w mod 48 =? 0 then w / 48 else w / 48 + 1) * 128)]
  end.

(** The size divides: no half chroma samples. *)
Definition compatible (p : picture) (w h : Z) : Prop :=
  match p with Planar hs vs _ => w mod hs = 0 /\ h mod vs = 0 | _ => True end.

(** The pixels at the right and bottom edges that have no chroma value of their own would not fill one. *)
Definition edge_small (p : picture) (w h : Z) : Prop :=
  match p with Planar hs vs _ => w * h - (w - w mod hs) * (h - h mod vs) < hs * vs | _ => True end.

(** The bytes of a sample in each uncompressed audio format, and whether channels go in pairs. *)
Inductive arrangement := Planes | Pairs | Interleaved.
Definition audio_table : list (Z * (arrangement * Z)) :=
  [(0x0, (Planes, 2)); (0x1, (Pairs, 2)); (0x2, (Interleaved, 2));
   (0x4, (Planes, 4)); (0x5, (Pairs, 3)); (0x6, (Interleaved, 3));
   (0x8, (Planes, 4)); (0x9, (Pairs, 4)); (0xa, (Interleaved, 4));
   (0x18, (Planes, 4)); (0x19, (Pairs, 4)); (0x1a, (Interleaved, 4));
   (0x2c, (Planes, 8)); (0x2d, (Pairs, 8)); (0x2e, (Interleaved, 8))].
Definition stored_channels (a : arrangement) (channels : Z) : Z :=
  match a with Pairs => channels + channels mod 2 | _ => channels end.

(** Sub-sampling of the planar chroma formats, and the depths that have a format. *)
Definition subsampling (c : chroma) : Z * Z :=
  match c with YUV_444 | CRGB => (0, 0) | YUV_422 => (1, 0) | YUV_420 => (1, 1) end.
Definition planar_depths : list Z := [8; 10; 12; 16; 32].

(** Width, height and bytes per line as the component states them. *)
Definition geometry (c : vcomp) : Z * Z * Z := (vc_width c, vc_height c, vc_stride c).

(** The lines fit in the component, or fill it. *)
Definition fits (c : vcomp) : Prop := vc_stride c * vc_height c <= vc_length c.
Definition full (c : vcomp) : Prop := vc_stride c * vc_height c = vc_length c.
