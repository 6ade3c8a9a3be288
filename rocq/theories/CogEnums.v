(** /repo/mediagrains/cogenums.py: the enumerations and the bit-field predicates on format numbers. *)
From Verif Require Import Base.

(** CogFrameFormat, cogenums.py 41-93. *)
Definition MJPEG := 0x200.  Definition DNxHD := 0x201.  Definition MPEG2 := 0x202.  Definition AVCI := 0x203.
Definition H264 := 0x204.   Definition DV := 0x205.     Definition D10 := 0x206.    Definition VC2 := 0x207.
Definition VP8 := 0x208.    Definition H265 := 0x209.
Definition ALPHA_U8_1BIT := 0x1080.
Definition U8_444 := 0x2000. Definition U8_422 := 0x2001. Definition U8_420 := 0x2003. Definition U8_444_RGB := 0x2010.
Definition ALPHA_U8 := 0x2080.
Definition YUYV := 0x2100. Definition UYVY := 0x2101. Definition AYUV := 0x2102. Definition RGB := 0x2104.
Definition RGBx := 0x2110. Definition xRGB := 0x2111. Definition BGRx := 0x2112. Definition xBGR := 0x2113.
Definition RGBA := 0x2114. Definition ARGB := 0x2115. Definition BGRA := 0x2116. Definition ABGR := 0x2117.
Definition S16_444_10BIT := 0x2804. Definition S16_444_10BIT_RGB := 0x2814. Definition S16_422_10BIT := 0x2805.
Definition S16_420_10BIT := 0x2807. Definition ALPHA_S16_10BIT := 0x2884. Definition v210 := 0x2906.
Definition S16_444_12BIT := 0x3004. Definition S16_444_12BIT_RGB := 0x3014. Definition S16_422_12BIT := 0x3005.
Definition S16_420_12BIT := 0x3007. Definition ALPHA_S16_12BIT := 0x3084.
Definition S16_444 := 0x4004. Definition S16_444_RGB := 0x4014. Definition S16_422 := 0x4005.
Definition S16_420 := 0x4007. Definition ALPHA_S16 := 0x4084. Definition v216 := 0x4105.
Definition S32_444 := 0x8008. Definition S32_444_RGB := 0x8018. Definition S32_422 := 0x8009.
Definition S32_420 := 0x800b. Definition ALPHA_S32 := 0x8088.
Definition UNKNOWN_FRAME := 0xfffffffe. Definition INVALID_FRAME := 0xffffffff.

Definition frame_formats : list Z :=
  [MJPEG; DNxHD; MPEG2; AVCI; H264; DV; D10; VC2; VP8; H265; ALPHA_U8_1BIT;
   U8_444; U8_422; U8_420; U8_444_RGB; ALPHA_U8; YUYV; UYVY; AYUV; RGB;
   RGBx; xRGB; BGRx; xBGR; RGBA; ARGB; BGRA; ABGR;
   S16_444_10BIT; S16_444_10BIT_RGB; S16_422_10BIT; S16_420_10BIT; ALPHA_S16_10BIT; v210;
   S16_444_12BIT; S16_444_12BIT_RGB; S16_422_12BIT; S16_420_12BIT; ALPHA_S16_12BIT;
   S16_444; S16_444_RGB; S16_422; S16_420; ALPHA_S16; v216;
   S32_444; S32_444_RGB; S32_422; S32_420; ALPHA_S32; UNKNOWN_FRAME; INVALID_FRAME].

(** CogFrameLayout, cogenums.py 96-102. *)
Definition frame_layouts : list Z := [0; 1; 2; 3; 4; 0xfffffffe].

(** CogAudioFormat, cogenums.py 105-126. *)
Definition audio_formats : list Z :=
  [0x0; 0x1; 0x2; 0x4; 0x5; 0x6; 0x8; 0x9; 0xa; 0xc; 0x18; 0x19; 0x1a; 0x2c; 0x2d; 0x2e; 0x200; 0x201; 0x202;
   0xfffffffe; 0xffffffff].

(** Calling the enum class on a number: ValueError unless it is a member (IntEnum). *)
Definition member (l : list Z) (v : Z) : bool := existsb (Z.eqb v) l.
Definition to_enum (l : list Z) (v : Z) : res Z := if member l v then Ok v else Err EValue.

(** PlanarChromaFormat, cogenums.py 129-133. *)
Inductive chroma := YUV_444 | YUV_422 | YUV_420 | CRGB.
Definition chroma_val (c : chroma) : Z :=
  match c with YUV_444 => 0x00 | YUV_422 => 0x01 | YUV_420 => 0x03 | CRGB => 0x10 end.

(** COG_PLANAR_FORMAT, cogenums.py 136-142. *)
Definition COG_PLANAR_FORMAT (c : chroma) (depth : Z) : res Z :=
  if depth <=? 8 then to_enum frame_formats (0 + chroma_val c + Z.shiftl depth 10)
  else if depth >? 16 then to_enum frame_formats (8 + chroma_val c + Z.shiftl depth 10)
  else to_enum frame_formats (4 + chroma_val c + Z.shiftl depth 10).

(** cogenums.py 145-186. *)
Definition IS_PACKED (fmt : Z) : bool := negb (Z.land (Z.shiftr fmt 8) 0x1 =? 0).
Definition IS_COMPRESSED (fmt : Z) : bool := negb (Z.land (Z.shiftr fmt 9) 0x1 =? 0).
Definition IS_PLANAR (fmt : Z) : bool := Z.land (Z.shiftr fmt 8) 0x3 =? 0.
Definition IS_ALPHA (fmt : Z) : bool := negb (Z.land (Z.shiftr fmt 7) 0x1 =? 0).
Definition IS_PLANAR_RGB (fmt : Z) : bool := Z.land (Z.shiftr fmt 4) 0x31 =? 1.
Definition BYTES_PER_VALUE (fmt : Z) : Z :=
  if Z.land fmt 0xc =? 0 then 1 else if Z.land fmt 0xc =? 4 then 2 else 4.
Definition H_SHIFT (fmt : Z) : Z := Z.land fmt 0x1.
Definition V_SHIFT (fmt : Z) : Z := Z.land (Z.shiftr fmt 1) 0x1.
Definition ACTIVE_BITS (fmt : Z) : Z := Z.land (Z.shiftr fmt 10) 0x3F.

(** cogenums.py 189-230: audio predicates and sample width. *)
Definition AUDIO_IS_PLANES (fmt : Z) : bool := Z.land fmt 0x3 =? 0.
Definition AUDIO_IS_PAIRS (fmt : Z) : bool := Z.land fmt 0x3 =? 1.
Definition AUDIO_IS_INTERLEAVED (fmt : Z) : bool := Z.land fmt 0x3 =? 2.
Definition AUDIO_IS_COMPRESSED (fmt : Z) : bool := Z.land fmt 0x200 =? 0x200.
Definition AUDIO_IS_INT (fmt : Z) : bool := Z.land fmt 0x030 =? 0x000.
Definition AUDIO_IS_FLOAT (fmt : Z) : bool := Z.land fmt 0x030 =? 0x010.
Definition AUDIO_IS_DOUBLE (fmt : Z) : bool := Z.land fmt 0x030 =? 0x020.
Definition AUDIO_DEPTH (fmt : Z) : Z := Z.land fmt 0xc.
Definition AUDIO_SAMPLEBYTES (fmt : Z) : Z :=
  if AUDIO_DEPTH fmt =? 0xc then 8
  else if AUDIO_IS_PLANES fmt && (AUDIO_DEPTH fmt =? 4) then Z.land (Z.shiftr (Z.land fmt 0xf) 2) 0x07 + 3
  else Z.land (Z.shiftr (Z.land fmt 0xf) 2) 0x07 + 2.
