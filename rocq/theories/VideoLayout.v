(** Buffers and component tables of new video and audio grains: /repo/mediagrains/grains/VideoGrain.py 303-424, 537-543 and
    /repo/mediagrains/grains/AudioGrain.py 15-29. *)
From Verif Require Import Base CogEnums.

(** The five entries of VideoGrainComponentDict (typing.py). *)
Record vcomp := mkVc { vc_stride : Z; vc_offset : Z; vc_width : Z; vc_height : Z; vc_length : Z }.

(** The bytes per value of a planar format, VideoGrain.py 307-313 and 344-350. *)
Definition planar_bpv (fmt : Z) : Z :=
  let depth := Z.land fmt 0xc in
  if depth =? 0 then 1 else if depth =? 4 then 2 else 4.

(** [fmt in (...)], VideoGrain.py 316-325 and 375-391. *)
Definition packed_422 : list Z := [YUYV; UYVY; AYUV].
Definition packed_rgba : list Z := [RGBx; RGBA; xRGB; ARGB; BGRx; BGRA; xBGR; ABGR].

(** size_for_format, VideoGrain.py 303-334. *)
Definition size_for_format (fmt w h : Z) : Z :=
  if Z.land (Z.shiftr fmt 8) 0x1 =? 0x00 then
    let h_shift := Z.land fmt 0x01 in
    let v_shift := Z.land (Z.shiftr fmt 1) 0x01 in
    (w * h + 2 * Z.shiftr (w * h) (h_shift + v_shift)) * planar_bpv fmt
  else if member packed_422 fmt then w * h * 2
  else if member packed_rgba fmt then w * h * 4
  else if fmt =? RGB then w * h * 3
  else if fmt =? v210 then h * ((w + 47) / 48 * 128)
  else if fmt =? v216 then w * h * 4
  else 0.

(** components_for_format, VideoGrain.py 339-424. *)
Definition components_for_format (fmt w h : Z) : list vcomp :=
  if Z.land (Z.shiftr fmt 8) 0x1 =? 0x00 then
    let h_shift := Z.land fmt 0x01 in
    let v_shift := Z.land (Z.shiftr fmt 1) 0x01 in
    let bpv := planar_bpv fmt in
    let offset := 0 in
    let c0 := mkVc (w * bpv) offset w h (w * h * bpv) in
    let offset := offset + w * h * bpv in
    let c1 := mkVc (Z.shiftr w h_shift * bpv) offset (Z.shiftr w h_shift) (Z.shiftr h v_shift)
                   (Z.shiftr (w * h) (h_shift + v_shift) * bpv) in
    let offset := offset + Z.shiftr (w * h) (h_shift + v_shift) * bpv in
    let c2 := mkVc (Z.shiftr w h_shift * bpv) offset (Z.shiftr w h_shift) (Z.shiftr h v_shift)
                   (Z.shiftr (w * h) (h_shift + v_shift) * bpv) in
    [c0; c1; c2]
  else if member packed_422 fmt then [mkVc (w * 2) 0 w h (h * w * 2)]
  else if member packed_rgba fmt then [mkVc (w * 4) 0 w h (h * w * 4)]
  else if fmt =? RGB then [mkVc (w * 3) 0 w h (h * w * 3)]
  else if fmt =? v210 then [mkVc ((w + 47) / 48 * 128) 0 w h (h * ((w + 47) / 48 * 128))]
  else if fmt =? v216 then [mkVc (w * 4) 0 w h (h * w * 4)]
  else [].

(** VideoGrain.__init__ without meta and data, 335-337 and 426-429: the buffer and the components. [bytearray] of a
    negative size raises ValueError. *)
Definition new_video (fmt w h : Z) : res (bytes * list vcomp) :=
  let size := size_for_format fmt w h in
  if size <? 0 then Err EValue else Ok (zeros (Z.to_nat size), components_for_format fmt w h).

(** expected_length, VideoGrain.py 537-543. *)
Definition video_expected_length (comps : list vcomp) : Z :=
  fold_left (fun length c => if vc_offset c + vc_length c >? length then vc_offset c + vc_length c else length) comps 0.

(** size_for_audio_format, AudioGrain.py 15-29. *)
Definition size_for_audio_format (fmt channels samples : Z) : Z :=
  if Z.land fmt 0x200 =? 0x200 then 0
  else
    let channels := if Z.land fmt 0x3 =? 0x1 then (channels + 1) / 2 * 2 else channels in
    let depth :=
      if Z.land fmt 0xC =? 0xC then 8
      else if Z.land fmt 0xf =? 0x04 then 4
      else Z.shiftr (Z.land fmt 0xf) 2 + 2 in
    channels * samples * depth.
