(** The video pattern generators: /repo/mediagrains/patterngenerators/video/constants.py, colourbars.py, lumasteps.py and
    movingbaroverlay.py. *)
From Verif Require Import Base CogEnums VideoLayout NpView PatternTime.

(** pixel_ranges, constants.py 24-37: bytes for a sample, the offsets of the three components, the range of luma, the
    active bits. (The ranges of the chroma components are not used by any generator.) *)
Record pixel_range := mkPx { px_bpp : Z; px_y : Z; px_range : Z; px_u : Z; px_v : Z; px_bits : Z }.
Definition pixel_ranges : list (Z * pixel_range) :=
  [(U8_444, mkPx 1 16 (235-16) 128 128 8); (U8_422, mkPx 1 16 (235-16) 128 128 8); (U8_420, mkPx 1 16 (235-16) 128 128 8);
   (S16_444_10BIT, mkPx 2 64 (940-64) 512 512 10); (S16_422_10BIT, mkPx 2 64 (940-64) 512 512 10);
   (S16_420_10BIT, mkPx 2 64 (940-64) 512 512 10);
   (S16_444_12BIT, mkPx 2 256 (3760-256) 2048 2048 12); (S16_422_12BIT, mkPx 2 256 (3760-256) 2048 2048 12);
   (S16_420_12BIT, mkPx 2 256 (3760-256) 2048 2048 12);
   (S16_444, mkPx 2 4096 (60160-4096) 32768 32768 16); (S16_422, mkPx 2 4096 (60160-4096) 32768 32768 16);
   (S16_420, mkPx 2 4096 (60160-4096) 32768 32768 16)].
Fixpoint px_lookup (t : list (Z * pixel_range)) (fmt : Z) : option pixel_range :=
  match t with
  | [] => None
  | (f, p) :: rest => if f =? fmt then Some p else px_lookup rest fmt
  end.

(** [data[a:b] = line] on a bytearray, 0 <= a <= b, and [data[i] = v], 0 <= i: IndexError outside, ValueError for a value
    that is not a byte. *)
Definition set_slice (d : bytes) (a b : Z) (line : bytes) : bytes := zfirst a d ++ line ++ zskip (Z.max a b) d.
Definition set_item (d : bytes) (i v : Z) : res bytes :=
  if negb (i <? zlen d) then Err EIndex
  else if negb ((0 <=? v) && (v <? 256)) then Err EValue
  else Ok (set_slice d i (i + 1) [v]).

(** A loop over a list whose body may raise. *)
Fixpoint for_each {A S} (body : S -> A -> res S) (s : S) (l : list A) : res S :=
  match l with
  | [] => Ok s
  | x :: rest => rbind (body s x) (fun s' => for_each body s' rest)
  end.

(** The list index [values[pos]]. *)
Definition item {A} (l : list A) (i : Z) : res A :=
  match nth_error l (Z.to_nat i) with Some x => Ok x | None => Err EIndex end.

(** [x // y] of non-negative numbers. *)
Definition floordiv (a b : Z) : res Z := if b =? 0 then Err EZeroDiv else Ok (a / b).

(** The table of colours, colourbars.py 38-46. [scale v] is int(v * intensity). *)
Definition bar_values (scale : Z -> Z) (bs : Z) : list (Z * Z * Z) :=
  [(scale (Z.shiftr 0xFFFF bs), Z.shiftr 0x8000 bs, Z.shiftr 0x8000 bs);
   (scale (Z.shiftr 0xE1FF bs), Z.shiftr 0x0000 bs, Z.shiftr 0x9400 bs);
   (scale (Z.shiftr 0xB200 bs), Z.shiftr 0xABFF bs, Z.shiftr 0x0000 bs);
   (scale (Z.shiftr 0x95FF bs), Z.shiftr 0x2BFF bs, Z.shiftr 0x15FF bs);
   (scale (Z.shiftr 0x69FF bs), Z.shiftr 0xD400 bs, Z.shiftr 0xEA00 bs);
   (scale (Z.shiftr 0x4C00 bs), Z.shiftr 0x5400 bs, Z.shiftr 0xFFFF bs);
   (scale (Z.shiftr 0x1DFF bs), Z.shiftr 0xFFFF bs, Z.shiftr 0x6BFF bs);
   (scale (Z.shiftr 0x0000 bs), Z.shiftr 0x8000 bs, Z.shiftr 0x8000 bs)].
Definition channel (v : Z * Z * Z) (c : Z) : Z :=
  let '(y, u, w) := v in if c =? 0 then y else if c =? 1 then u else w.

(** Writing sample x of a line, colourbars.py 63-67. *)
Definition put_sample (bpp : Z) (line : bytes) (x v : Z) : res bytes :=
  if bpp =? 1 then set_item line x v
  else if bpp =? 2 then
    rbind (set_item line (2 * x + 0) (Z.land v 0xFF)) (fun line =>
    set_item line (2 * x + 1) (Z.land (Z.shiftr v 8) 0xFF))
  else Ok line.

(** One line of bars, colourbars.py 56-67. *)
Definition bar_line (values : list (Z * Z * Z)) (bpp : Z) (c : Z) (width : Z) : res bytes :=
  for_each (fun line x =>
    rbind (floordiv x (width / 8)) (fun pos =>
    rbind (item values pos) (fun v => put_sample bpp line x (channel v c))))
    (zeros (Z.to_nat (width * bpp))) (zrange width).

(** Copying a line into every row of a component, colourbars.py 69-74 and lumasteps.py 57-63. *)
Definition put_row (bpp : Z) (comp : vcomp) (line : bytes) (data : bytes) (y : Z) : bytes :=
  set_slice data (vc_offset comp + y * vc_stride comp) (vc_offset comp + y * vc_stride comp + vc_width comp * bpp) line.
Definition put_rows (bpp : Z) (comp : vcomp) (line : bytes) (data : bytes) : bytes :=
  fold_left (put_row bpp comp line) (zrange (vc_height comp)) data.

(** ColourBars.__init__, colourbars.py 27-76: the picture of the template grain. *)
Definition colour_bars (scale : Z -> Z) (fmt w h : Z) : res bytes :=
  match px_lookup pixel_ranges fmt with
  | None => Err EValue
  | Some px =>
      let values := bar_values scale (16 - px_bits px) in
      rbind (new_video fmt w h) (fun '(data, comps) =>
      match comps with
      | [c0; c1; c2] =>
          rbind (bar_line values (px_bpp px) 0 (vc_width c0)) (fun l0 =>
          rbind (bar_line values (px_bpp px) 1 (vc_width c1)) (fun l1 =>
          rbind (bar_line values (px_bpp px) 2 (vc_width c2)) (fun l2 =>
          Ok (put_rows (px_bpp px) c2 l2 (put_rows (px_bpp px) c1 l1 (put_rows (px_bpp px) c0 l0 data))))))
      | _ => Err EIndex
      end)
  end.

(** The line of luma steps, lumasteps.py 48-55. *)
Definition step_line (px : pixel_range) (width : Z) : res bytes :=
  for_each (fun line x =>
    rbind (floordiv x (width / 8)) (fun pos =>
    let v := px_y px + (pos * px_range px) / 8 in
    if px_bpp px =? 1 then set_item line x (Z.land v 0xFF) else put_sample (px_bpp px) line x v))
    (zeros (Z.to_nat (width * px_bpp px))) (zrange width).

(** The chroma samples, lumasteps.py 65-80. *)
Definition put_chroma (px : pixel_range) (c1 c2 : vcomp) (data : bytes) : res bytes :=
  for_each (fun data y =>
    let u := vc_offset c1 + y * vc_stride c1 in
    let v := vc_offset c2 + y * vc_stride c2 in
    for_each (fun data x =>
      if px_bpp px =? 1 then
        rbind (set_item data (u + x) (px_u px)) (fun data => set_item data (v + x) (px_u px))
      else
        rbind (set_item data (u + 2 * x + 0) (Z.land (px_u px) 0xFF)) (fun data =>
        rbind (set_item data (u + 2 * x + 1) (Z.land (Z.shiftr (px_u px) 8) 0xFF)) (fun data =>
        rbind (set_item data (v + 2 * x + 0) (Z.land (px_u px) 0xFF)) (fun data =>
        set_item data (v + 2 * x + 1) (Z.land (Z.shiftr (px_u px) 8) 0xFF)))))
      data (zrange (vc_width c1)))
    data (zrange (vc_height c1)).

(** LumaSteps.__init__, lumasteps.py 27-82. *)
Definition luma_steps (fmt w h : Z) : res bytes :=
  match px_lookup pixel_ranges fmt with
  | None => Err EValue
  | Some px =>
      rbind (new_video fmt w h) (fun '(data, comps) =>
      match comps with
      | [c0; c1; c2] =>
          rbind (step_line px w) (fun line =>
          put_chroma px c1 c2 (fold_left (put_row (px_bpp px) c0 line) (zrange h) data))
      | _ => Err EIndex
      end)
  end.

(** One line of the bar of MovingBarOverlay, movingbaroverlay.py 50-66: samples of the value for black. Every line of
    [self._bar[c]] is the same, and line y of it is the slice taken at 82-84, 89-90 and 95-96. *)
Definition bar_row (bpp v width : Z) : bytes :=
  flat_map (fun _ => if bpp >? 1 then [Z.land v 0xFF; Z.shiftr v 8] else [Z.land v 0xFF]) (zrange width).

(** The bar in one component, movingbaroverlay.py 79-84: [line_no = (first + y) % height] raises for a component
    without lines. *)
Definition put_bar (bpp : Z) (comp : vcomp) (line : bytes) (first rows : Z) (data : bytes) : res bytes :=
  for_each (fun data y =>
    if vc_height comp =? 0 then Err EZeroDiv
    else Ok (put_row bpp comp line data ((first + y) mod vc_height comp)))
    data (zrange rows).

(** MovingBarOverlay.get, movingbaroverlay.py 69-98, on the picture of the source grain. [fnum] is int(speed * count). *)
Definition overlay (fmt w h bar_height fnum : Z) (data : bytes) : res bytes :=
  match px_lookup pixel_ranges fmt, components_for_format fmt w h with
  | Some px, [c0; c1; c2] =>
      let vs := V_SHIFT fmt in
      rbind (put_bar (px_bpp px) c0 (bar_row (px_bpp px) (px_y px) w) fnum bar_height data) (fun data =>
      for_each (fun data y =>
        if vc_height c1 =? 0 then Err EZeroDiv
        else
          let data := put_row (px_bpp px) c1 (bar_row (px_bpp px) (px_u px) (Z.shiftr w (H_SHIFT fmt))) data
                              ((Z.shiftr fnum vs + y) mod vc_height c1) in
          if vc_height c2 =? 0 then Err EZeroDiv
          else Ok (put_row (px_bpp px) c2 (bar_row (px_bpp px) (px_v px) (Z.shiftr w (H_SHIFT fmt))) data
                           ((Z.shiftr fnum vs + y) mod vc_height c2)))
        data (zrange (Z.shiftr bar_height vs)))
  | None, _ => Err EValue
  | _, _ => Err EIndex
  end.

(** get with the key: the source raises KeyError where it has no grain, movingbaroverlay.py 70-74. *)
Definition overlay_get (k : clock) (own : rate) (src : tvalue -> res (option (still_grain bytes))) (speed : Z -> Z)
    (fmt w h bar_height : Z) (key : tvalue) : res (option (still_grain bytes)) :=
  rbind (src (at_rate k key own)) (fun o =>
  match o with
  | None => Err EKey
  | Some g =>
      rbind (overlay fmt w h bar_height (speed (to_count k (sg_origin g) (fst own) (snd own))) (sg_picture g)) (fun d =>
      Ok (Some (mkSg d (sg_origin g) (sg_sync g))))
  end).
