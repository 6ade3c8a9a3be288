(** H.264 byte streams: /repo/mediagrains/utils/h264_parser.py and h264_grain_wrapper.py.

    BitStream, its [read] and its [findall] are from the bitstring library, which is not part of /repo; they are modelled
    on lists of bits and of bytes. All offsets in the code are multiples of eight, so byte offsets are used here. *)
From Verif Require Import Base PatternTime Wrap.

(** ** Bits *)
Definition bits := list bool.

(** The eight bits of a byte, most significant first. *)
Definition byte_bits (b : Z) : bits := map (fun i => Z.testbit b i) [7; 6; 5; 4; 3; 2; 1; 0].
Definition to_bits (d : bytes) : bits := flat_map byte_bits d.

(** A parser reads from the front of the bits. *)
Definition parser A := bits -> res (A * bits).
Definition pret {A} (a : A) : parser A := fun b => Ok (a, b).
Definition pfail {A} (e : err) : parser A := fun _ => Err e.
Definition pbind {A B} (p : parser A) (f : A -> parser B) : parser B :=
  fun b => match p b with Ok (a, b) => f a b | Err e => Err e end.
Notation "x <- p ;; q" := (pbind p (fun x => q)) (at level 81, p at next level, right associativity).
Notation "p ;;; q" := (pbind p (fun _ => q)) (at level 81, right associativity).

Definition bits_value (l : bits) : Z := fold_left (fun n (b : bool) => 2 * n + (if b then 1 else 0)) l 0.

(** [read('uint:n')]: bitstring.ReadError if there are not n bits; a length of 0 is a ValueError. *)
Definition uint (n : Z) : parser Z := fun b =>
  if n =? 0 then Err EValue
  else if zlen b <? n then Err ERead
  else Ok (bits_value (zfirst n b), zskip n b).

(** [read('ue')]: zeros, a one, and as many bits as there were zeros. *)
Fixpoint zeros_before_one (b : bits) : option (Z * bits) :=
  match b with
  | [] => None
  | true :: b => Some (0, b)
  | false :: b => match zeros_before_one b with Some (n, b) => Some (n + 1, b) | None => None end
  end.
Definition ue : parser Z := fun b =>
  match zeros_before_one b with
  | None => Err ERead
  | Some (n, b) =>
      if n =? 0 then Ok (0, b)
      else if zlen b <? n then Err ERead
      else Ok (2 ^ n - 1 + bits_value (zfirst n b), zskip n b)
  end.

(** [read('se')]: 0, 1, -1, 2, -2, ... *)
Definition se : parser Z :=
  c <- ue ;; pret (if c mod 2 =? 0 then - ((c + 1) / 2) else (c + 1) / 2).

(** [for _ in range(n): p], where p reads at least one bit: a number of rounds larger than that of the bits fails in p. *)
Fixpoint times (fuel : nat) (n : Z) (p : parser unit) : parser unit :=
  if n <=? 0 then pret tt
  else match fuel with
       | O => pfail EFuel
       | S fuel => p ;;; times fuel (n - 1) p
       end.
Definition repeat_read (n : Z) (p : parser unit) : parser unit := fun b => times (S (length b)) n p b.
Definition skip {A} (p : parser A) : parser unit := p ;;; pret tt.
Definition check (bad : bool) : parser unit := if bad then pfail EValue else pret tt.

(** ** Network abstraction layer units *)

(** [findall(pattern, bytealigned=True)]: all offsets of three bytes. *)
Fixpoint findall (x y z : Z) (i : Z) (d : bytes) : list Z :=
  match d with
  | [] => []
  | a :: t =>
      match t with
      | b :: c :: _ => if (a =? x) && (b =? y) && (c =? z) then i :: findall x y z (i + 1) t else findall x y z (i + 1) t
      | _ => []
      end
  end.

(** [d[a:b]], 0 <= a, b. *)
Definition slice (d : bytes) (a b : Z) : bytes := zfirst (b - a) (zskip a d).

(** _parse_start_code_prefix, h264_parser.py 700-713: the length of the prefix. *)
Definition start_code (nalu : bytes) : res Z :=
  match nalu with
  | 0 :: 0 :: 0 :: t => match t with [] => Err ERead | c :: _ => if c =? 1 then Ok 4 else Err EValue end
  | a :: b :: c :: _ => if (c =? 1) && (b =? 0) && (a =? 0) then Ok 3 else Err EValue
  | _ => Err ERead
  end.

(** _parse_nal_unit_type, h264_parser.py 438-450. *)
Definition nal_unit_type (nalu : bytes) : res Z :=
  rbind (start_code nalu) (fun n =>
  match zskip n nalu with
  | [] => Err ERead
  | h :: _ => Ok (Z.land h 31)
  end).

(** The pieces between emulation prevention bytes, h264_parser.py 690-694. *)
Fixpoint pieces (d : bytes) (emu : Z) (next : list Z) : bytes :=
  match next with
  | [] => zskip (emu + 3) d
  | n :: next => slice d (emu + 3) (n + 2) ++ pieces d n next
  end.

(** _parse_rbsp_bits, h264_parser.py 676-698, as bytes. *)
Definition rbsp (nalu : bytes) : res bytes :=
  rbind (start_code nalu) (fun n =>
  match findall 0 0 3 0 nalu with
  | [] => Ok (zskip n nalu)
  | emu :: next => Ok (slice nalu n (emu + 2) ++ pieces nalu emu next)
  end).

(** ** Sequence parameter sets *)

(** SPS, h264_parser.py 50-86. *)
Record sps := mkSps {
  profile_idc : Z; sps_flags : Z; level_idc : Z; seq_parameter_set_id : Z;
  chroma_format_idc : Z; chroma_array_type : Z; separate_colour_plane_flag : Z; bit_depth_luma_minus8 : Z; bit_depth_chroma_minus8 : Z;
  log2_max_frame_num_minus4 : Z;
  pic_order_cnt_type : Z; log2_max_pic_order_cnt_lsb_minus4 : Z; delta_pic_order_always_zero_flag : Z;
  pic_width_in_mbs_minus1 : Z; pic_height_in_map_units_minus1 : Z; frame_mbs_only_flag : Z;
  frame_crop_left_offset : Z; frame_crop_right_offset : Z; frame_crop_top_offset : Z; frame_crop_bottom_offset : Z;
  vui_parameters_present_flag : Z; aspect_ratio_idc : Z; sar_width : Z; sar_height : Z;
  video_signal_type_present_flag : Z; video_format : Z; colour_description_present_flag : Z;
  colour_primaries : Z; transfer_characteristics : Z; matrix_coefficients : Z;
  timing_info_present_flag : Z; num_units_in_tick : Z; time_scale : Z; fixed_frame_rate_flag : Z }.

(** The profiles with a chroma format, h264_parser.py 471. *)
Definition chroma_profiles : list Z := [100; 110; 122; 244; 44; 83; 86; 118; 128; 138; 139; 134; 135].

(** One scaling list, h264_parser.py 495-501: the rest of [size] values. *)
Fixpoint scaling_list (size : nat) (last next : Z) : parser unit :=
  match size with
  | O => pret tt
  | S size =>
      n <- (if negb (next =? 0) then d <- se ;; pret ((last + d + 256) mod 256) else pret next) ;;
      scaling_list size (if n =? 0 then last else n) n
  end.

(** The scaling lists from number i, h264_parser.py 491-501. *)
Fixpoint scaling_lists (i count : nat) : parser unit :=
  match count with
  | O => pret tt
  | S count =>
      f <- uint 1 ;;
      (if negb (f =? 0) then scaling_list (if (i <? 6)%nat then 16%nat else 64%nat) 8 8 else pret tt) ;;;
      scaling_lists (S i) count
  end.

(** h264_parser.py 471-501: chroma_format_idc, chroma_array_type, separate_colour_plane_flag, bit_depth_luma_minus8 and
    bit_depth_chroma_minus8. *)
Definition parse_chroma (profile : Z) : parser (Z * Z * Z * Z * Z) :=
  if existsb (Z.eqb profile) chroma_profiles then
    format <- ue ;;
    check (3 <? format) ;;;
    separate <- (if format =? 3 then uint 1 else pret 0) ;;
    luma <- ue ;;
    check (6 <? luma) ;;;
    chroma <- ue ;;
    check (6 <? chroma) ;;;
    uint 1 ;;;
    matrix <- uint 1 ;;
    (if negb (matrix =? 0) then scaling_lists 0 (if negb (format =? 3) then 8%nat else 12%nat) else pret tt) ;;;
    pret (format, if separate =? 0 then format else 0, separate, luma, chroma)
  else pret (1, 1, 0, 0, 0).

(** h264_parser.py 503-514: pic_order_cnt_type, log2_max_pic_order_cnt_lsb_minus4, delta_pic_order_always_zero_flag. *)
Definition parse_poc : parser (Z * Z * Z) :=
  t <- ue ;;
  if t =? 0 then l <- ue ;; pret (t, l, 0)
  else if t =? 1 then
    z <- uint 1 ;;
    se ;;;
    se ;;;
    n <- ue ;;
    check (255 <? n) ;;;
    repeat_read n (skip se) ;;;
    pret (t, 0, z)
  else pret (t, 0, 0).

(** h264_parser.py 523-528: the four crop offsets, left, right, top, bottom. *)
Definition parse_crop : parser (Z * Z * Z * Z) :=
  f <- uint 1 ;;
  if negb (f =? 0) then l <- ue ;; r <- ue ;; t <- ue ;; b <- ue ;; pret (l, r, t, b) else pret (0, 0, 0, 0).

(** h264_parser.py 531-536. *)
Definition parse_aspect : parser (Z * Z * Z) :=
  f <- uint 1 ;;
  if negb (f =? 0) then
    i <- uint 8 ;;
    if i =? 255 then w <- uint 16 ;; h <- uint 16 ;; pret (i, w, h) else pret (i, 0, 0)
  else pret (0, 0, 0).

(** h264_parser.py 540-548: flag, video_format, flag, the three codes of the colour description. *)
Definition parse_signal : parser (Z * Z * Z * (Z * Z * Z)) :=
  f <- uint 1 ;;
  if negb (f =? 0) then
    v <- uint 3 ;;
    uint 1 ;;;
    c <- uint 1 ;;
    (if negb (c =? 0) then p <- uint 8 ;; t <- uint 8 ;; m <- uint 8 ;; pret (f, v, c, (p, t, m)) else pret (f, v, c, (2, 2, 2)))
  else pret (f, 5, 0, (2, 2, 2)).

(** h264_parser.py 553-557. *)
Definition parse_timing : parser (Z * Z * Z * Z) :=
  f <- uint 1 ;;
  if negb (f =? 0) then u <- uint 32 ;; s <- uint 32 ;; x <- uint 1 ;; pret (f, u, s, x) else pret (f, 0, 0, 0).

(** h264_parser.py 529-557. *)
Definition parse_vui : parser (Z * (Z * Z * Z) * (Z * Z * Z * (Z * Z * Z)) * (Z * Z * Z * Z)) :=
  v <- uint 1 ;;
  if negb (v =? 0) then
    aspect <- parse_aspect ;;
    o <- uint 1 ;;
    (if negb (o =? 0) then skip (uint 1) else pret tt) ;;;
    signal <- parse_signal ;;
    c <- uint 1 ;;
    (if negb (c =? 0) then ue ;;; skip ue else pret tt) ;;;
    timing <- parse_timing ;;
    pret (v, aspect, signal, timing)
  else pret (v, (0, 0, 0), (0, 5, 0, (2, 2, 2)), (0, 0, 0, 0)).

(** _parse_sps, h264_parser.py 452-561. *)
Definition parse_sps : parser sps :=
  uint 1 ;;;
  uint 2 ;;;
  uint 5 ;;;
  profile <- uint 8 ;;
  flags <- uint 8 ;;
  level <- uint 8 ;;
  id <- ue ;;
  check (31 <? id) ;;;
  chroma <- parse_chroma profile ;;
  frame_num <- ue ;;
  poc <- parse_poc ;;
  ue ;;;
  uint 1 ;;;
  width <- ue ;;
  height <- ue ;;
  mbs_only <- uint 1 ;;
  (if mbs_only =? 0 then skip (uint 1) else pret tt) ;;;
  uint 1 ;;;
  crop <- parse_crop ;;
  vui <- parse_vui ;;
  let '(format, array, separate, luma, chroma) := chroma in
  let '(poc_type, lsb, zero) := poc in
  let '(crop_l, crop_r, crop_t, crop_b) := crop in
  let '(v, (idc, sw, sh), (vs, vf, cd, (cp, tc, mc)), (ti, nu, ts, ff)) := vui in
  pret (mkSps profile flags level id format array separate luma chroma frame_num poc_type lsb zero width height mbs_only
              crop_l crop_r crop_t crop_b v idc sw sh vs vf cd cp tc mc ti nu ts ff).

(** ** Picture parameter sets *)

(** PPS, h264_parser.py 89-95. *)
Record pps := mkPps { pps_sps_id : Z; pps_id : Z; pps_bottom_field : Z; pps_redundant : Z }.

(** The number of bits of a slice group, h264_parser.py 596-599: the highest of bits 63 to 0 that is set. *)
Fixpoint bits_required (n : nat) (value : Z) : Z :=
  match n with
  | O => 0
  | S m => if Z.testbit value (Z.of_nat n) then Z.of_nat n else bits_required m value
  end.

(** The slice groups, h264_parser.py 581-600. *)
Definition parse_groups (n : Z) : parser unit :=
  if 0 <? n then
    t <- ue ;;
    if t =? 0 then repeat_read (n + 1) (skip ue)
    else if t =? 2 then repeat_read n (ue ;;; skip ue)
    else if (t =? 3) || (t =? 4) || (t =? 5) then uint 1 ;;; skip ue
    else if t =? 6 then p <- ue ;; repeat_read (p + 1) (skip (uint (bits_required 63 (p + 1))))
    else pret tt
  else pret tt.

(** _parse_pps, h264_parser.py 563-614. *)
Definition parse_pps : parser pps :=
  uint 1 ;;;
  uint 2 ;;;
  uint 5 ;;;
  id <- ue ;;
  sps_id <- ue ;;
  uint 1 ;;;
  bottom <- uint 1 ;;
  groups <- ue ;;
  parse_groups groups ;;;
  ue ;;;
  ue ;;;
  uint 1 ;;;
  uint 2 ;;;
  se ;;;
  se ;;;
  se ;;;
  uint 1 ;;;
  uint 1 ;;;
  redundant <- uint 1 ;;
  pret (mkPps sps_id id bottom redundant).

(** ** Slice headers *)

(** SliceHeader, h264_parser.py 98-114. *)
Record slice_header := mkSh {
  sh_type : Z; sh_ref_idc : Z; sh_unit_type : Z; sh_pps_id : Z; sh_field : Z; sh_idr : Z; sh_idr_id : Z; sh_lsb : Z;
  sh_delta_bottom : Z; sh_delta_0 : Z; sh_delta_1 : Z; sh_redundant : Z; sh_frame_num : Z; sh_bottom : Z }.

(** The dictionaries of H264Parser, h264_parser.py 135-137. *)
Record param_sets := mkPs { sps_sets : list (Z * sps); pps_sets : list (Z * pps) }.
Fixpoint dget {A} (k : Z) (d : list (Z * A)) : option A :=
  match d with [] => None | (k', v) :: d => if k =? k' then Some v else dget k d end.
Fixpoint dput {A} (k : Z) (v : A) (d : list (Z * A)) : list (Z * A) :=
  match d with [] => [(k, v)] | (k', w) :: d => if k =? k' then (k, v) :: d else (k', w) :: dput k v d end.

(** The sets that a slice refers to, h264_parser.py 635-640: UnavailableParamSets is a ValueError. *)
Definition active (ps : param_sets) (id : Z) : res (pps * sps) :=
  match dget id (pps_sets ps) with
  | None => Err EValue
  | Some p => match dget (pps_sps_id p) (sps_sets ps) with None => Err EValue | Some s => Ok (p, s) end
  end.
Definition plift {A} (r : res A) : parser A := fun b => match r with Ok a => Ok (a, b) | Err e => Err e end.

(** _parse_slice_header, h264_parser.py 616-664. *)
Definition parse_slice_header (ps : param_sets) : parser slice_header :=
  uint 1 ;;;
  ref_idc <- uint 2 ;;
  unit_type <- uint 5 ;;
  ue ;;;
  slice_type <- ue ;;
  pps_id <- ue ;;
  a <- plift (active ps pps_id) ;;
  (if negb (separate_colour_plane_flag (snd a) =? 0) then skip (uint 2) else pret tt) ;;;
  frame_num <- uint (log2_max_frame_num_minus4 (snd a) + 4) ;;
  field <- (if frame_mbs_only_flag (snd a) =? 0 then uint 1 else pret 0) ;;
  bottom <- (if (frame_mbs_only_flag (snd a) =? 0) && negb (field =? 0) then uint 1 else pret 0) ;;
  idr_id <- (if unit_type =? 5 then ue else pret 0) ;;
  lsb <- (if pic_order_cnt_type (snd a) =? 0 then uint (log2_max_pic_order_cnt_lsb_minus4 (snd a) + 4) else pret 0) ;;
  delta_bottom <- (if (pic_order_cnt_type (snd a) =? 0) && negb (pps_bottom_field (fst a) =? 0) && (field =? 0) then se else pret 0) ;;
  delta_0 <- (if (pic_order_cnt_type (snd a) =? 1) && (delta_pic_order_always_zero_flag (snd a) =? 0) then se else pret 0) ;;
  delta_1 <- (if (pic_order_cnt_type (snd a) =? 1) && (delta_pic_order_always_zero_flag (snd a) =? 0) &&
                 negb (pps_bottom_field (fst a) =? 0) && (field =? 0) then se else pret 0) ;;
  redundant <- (if negb (pps_redundant (fst a) =? 0) then ue else pret 0) ;;
  pret (mkSh slice_type ref_idc unit_type pps_id field (if unit_type =? 5 then 1 else 0) idr_id lsb delta_bottom delta_0 delta_1
             redundant frame_num bottom).

(** ** Frames *)

(** The condition of h264_parser.py 198-221: the slice belongs to another picture than the first one. *)
Definition other_picture (s : sps) (a f : slice_header) : bool :=
  negb (sh_pps_id a =? sh_pps_id f) ||
  negb (sh_frame_num a =? sh_frame_num f) ||
  negb (sh_field a =? sh_field f) ||
  (negb (sh_field a =? 0) && negb (sh_bottom a =? sh_bottom f)) ||
  (negb (sh_ref_idc a =? sh_ref_idc f) && (negb (sh_ref_idc a =? 0) || negb (sh_ref_idc f =? 0))) ||
  negb (sh_idr a =? sh_idr f) ||
  ((sh_idr a =? 1) && negb (sh_idr_id a =? sh_idr_id f)) ||
  ((pic_order_cnt_type s =? 0) && (negb (sh_lsb a =? sh_lsb f) || negb (sh_delta_bottom a =? sh_delta_bottom f))) ||
  ((pic_order_cnt_type s =? 1) && (negb (sh_delta_0 a =? sh_delta_0 f) || negb (sh_delta_1 a =? sh_delta_1 f))).

Definition is_slice (t : Z) : bool := (t =? 1) || (t =? 2) || (t =? 5).
(** h264_parser.py 228-232. *)
Definition starts_picture (t : Z) : bool := (t =? 9) || (t =? 7) || (t =? 8) || (t =? 6) || ((15 <=? t) && (t <=? 18)).

(** Run a parser on the payload of a unit. *)
Definition on_rbsp {A} (nalu : bytes) (p : parser A) : res A :=
  rbind (rbsp nalu) (fun d => rbind (p (to_bits d)) (fun r => Ok (fst r))).

(** What a unit does to the parser state and the list of primary slice headers of parse_frame: the body of its loop,
    h264_parser.py 178-244. None stands for [break]. *)
Definition take_unit (ps : param_sets) (headers : list slice_header) (nalu : bytes) : res (option (param_sets * list slice_header)) :=
  rbind (nal_unit_type nalu) (fun t =>
  if is_slice t then
    rbind (on_rbsp nalu (parse_slice_header ps)) (fun h =>
    rbind (active ps (sh_pps_id h)) (fun a =>
    if sh_redundant h =? 0 then
      match headers with
      | f :: _ => if other_picture (snd a) h f then Ok None else Ok (Some (ps, headers ++ [h]))
      | [] => Ok (Some (ps, headers ++ [h]))
      end
    else Ok (Some (ps, headers))))
  else if negb (match headers with [] => true | _ => false end) && starts_picture t then Ok None
  else if t =? 7 then
    rbind (on_rbsp nalu parse_sps) (fun s => Ok (Some (mkPs (dput (seq_parameter_set_id s) s (sps_sets ps)) (pps_sets ps), headers)))
  else if t =? 8 then
    rbind (on_rbsp nalu parse_pps) (fun p => Ok (Some (mkPs (sps_sets ps) (dput (pps_id p) p (pps_sets ps)), headers)))
  else Ok (Some (ps, headers))).

(** The loop of parse_frame, h264_parser.py 177-248: the state, the headers, the offsets taken and the offset of the unit
    that starts the next frame, or the exception. *)
Fixpoint take_units (d : bytes) (ps : param_sets) (headers : list slice_header) (taken : list Z) (offset : Z) (next : list Z)
  : param_sets * res (list slice_header * list Z * option Z) :=
  match next with
  | [] => (ps, Ok (headers, taken, None))
  | n :: next =>
      match take_unit ps headers (slice d offset n) with
      | Err e => (ps, Err e)
      | Ok None => (ps, Ok (headers, taken, Some offset))
      | Ok (Some (ps, headers)) => take_units d ps headers (taken ++ [offset]) n next
      end
  end.

(** FrameInfo, h264_parser.py 117-131. *)
Record frame_info := mkFi {
  fi_profile : Z; fi_level : Z; fi_flags : Z; fi_bit_depth : Z; fi_coded_width : Z; fi_coded_height : Z; fi_width : Z; fi_height : Z;
  fi_rate : option rate; fi_fixed : option bool; fi_aspect : option rate; fi_key : bool }.

(** The table of _get_sample_aspect_ratio, h264_parser.py 411-429. *)
Definition aspect_ratios : list (Z * Z) :=
  [(0, 1); (1, 1); (12, 11); (10, 11); (16, 11); (40, 33); (24, 11); (20, 11); (32, 11); (80, 33); (18, 11); (15, 11); (64, 33);
   (160, 99); (4, 3); (3, 2); (2, 1)].

(** _get_sample_aspect_ratio, h264_parser.py 409-436. *)
Definition sample_aspect (s : sps) : res (option rate) :=
  if aspect_ratio_idc s =? 255 then
    if sar_height s =? 0 then Err EZeroDiv else Ok (Some (fraction (sar_width s) (sar_height s)))
  else match nth_error aspect_ratios (Z.to_nat (aspect_ratio_idc s)) with
       | Some (n, d) => Ok (Some (fraction n d))
       | None => Ok None
       end.

(** key_frame: all of the slices are I or SI slices, h264_parser.py 401-405; the list is not empty. *)
Definition key_frame (hs : list slice_header) : bool :=
  forallb (fun h => existsb (Z.eqb (sh_type h)) [2; 4; 7; 9]) hs.

(** _extract_frame_info, h264_parser.py 333-407. *)
Definition extract_frame_info (ps : param_sets) (hs : list slice_header) : res (option frame_info) :=
  match hs with
  | [] => Ok None
  | h :: _ =>
      match active ps (sh_pps_id h) with
      | Err _ => Err EUnbound
      | Ok (_, s) =>
          let coded_width := (pic_width_in_mbs_minus1 s + 1) * 16 in
          let coded_height := (pic_height_in_map_units_minus1 s + 1) * 16 * (2 - frame_mbs_only_flag s) in
          let unit_x := if chroma_array_type s =? 0 then 1 else if chroma_array_type s =? 1 then 2 else if chroma_array_type s =? 2 then 2 else 1 in
          let unit_y := (if chroma_array_type s =? 0 then 1 else if chroma_array_type s =? 1 then 2 else 1) * (2 - frame_mbs_only_flag s) in
          let width := coded_width - unit_x * frame_crop_right_offset s - unit_x * frame_crop_left_offset s in
          let height := coded_height - unit_y * frame_crop_bottom_offset s - unit_y * frame_crop_top_offset s in
          rbind (sample_aspect s) (fun aspect =>
          if negb (timing_info_present_flag s =? 0) then
            if (time_scale s =? 0) || (num_units_in_tick s =? 0) then Err EValue
            else
              Ok (Some (mkFi (profile_idc s) (level_idc s) (sps_flags s) (bit_depth_luma_minus8 s + 8) coded_width coded_height width height
                    (Some (fraction (time_scale s) (num_units_in_tick s * (if negb (sh_field h =? 0) then 1 else 2))))
                    (Some (negb (fixed_frame_rate_flag s =? 0))) aspect (key_frame hs)))
          else
            Ok (Some (mkFi (profile_idc s) (level_idc s) (sps_flags s) (bit_depth_luma_minus8 s + 8) coded_width coded_height width height
                  None None aspect (key_frame hs))))
      end
  end.

(** parse_frame, h264_parser.py 152-268: None if there is not enough data. *)
Definition parse_frame (ps : param_sets) (d : bytes) : param_sets * res (option (Z * list Z * option frame_info)) :=
  match findall 0 0 1 0 d with
  | [] => (ps, Ok None)
  | offset :: next =>
      match take_units d ps [] [] offset (next ++ [zlen d]) with
      | (ps, Err ERead) => (ps, Ok None)
      | (ps, Err e) => (ps, Err e)
      | (ps, Ok (_, _, None)) => (ps, Ok None)
      | (ps, Ok (headers, taken, Some offset)) =>
          match extract_frame_info ps headers with
          | Err ERead => (ps, Ok None)
          | Err e => (ps, Err e)
          | Ok info =>
              let size := if (0 <? offset) && (nth (Z.to_nat (offset - 1)) d 0 =? 0) then offset - 1 else offset in
              (ps, Ok (Some (size, taken, info)))
          end
      end
  end.

(** The loop of parse_frame_info, h264_parser.py 296-326. *)
Fixpoint info_units (d : bytes) (ps : param_sets) (headers : list slice_header) (offset : Z) (next : list Z)
  : param_sets * res (list slice_header) :=
  match next with
  | [] => (ps, Ok headers)
  | n :: next =>
      let nalu := slice d offset n in
      match nal_unit_type nalu with
      | Err e => (ps, Err e)
      | Ok t =>
          if is_slice t then
            match on_rbsp nalu (parse_slice_header ps) with
            | Err e => (ps, Err e)
            | Ok h => if negb (sh_redundant h =? 0) then (ps, Ok headers) else info_units d ps (headers ++ [h]) n next
            end
          else if t <=? 5 then (ps, Ok headers)
          else if t =? 7 then
            match on_rbsp nalu parse_sps with
            | Err e => (ps, Err e)
            | Ok s => info_units d (mkPs (dput (seq_parameter_set_id s) s (sps_sets ps)) (pps_sets ps)) headers n next
            end
          else if t =? 8 then
            match on_rbsp nalu parse_pps with
            | Err e => (ps, Err e)
            | Ok p => info_units d (mkPs (sps_sets ps) (dput (pps_id p) p (pps_sets ps))) headers n next
            end
          else info_units d ps headers n next
      end
  end.

(** parse_frame_info, h264_parser.py 270-331, with the byte offsets of the units. *)
Definition parse_frame_info (ps : param_sets) (d : bytes) (offsets : list Z) : param_sets * res (option frame_info) :=
  match offsets with
  | [] => (ps, Err EValue)
  | offset :: next =>
      match info_units d ps [] offset (next ++ [zlen d]) with
      | (ps, Err e) => (ps, Err e)
      | (ps, Ok headers) => (ps, extract_frame_info ps headers)
      end
  end.

(** ** The wrapper *)
Definition READ_BLOCK_SIZE : Z := 8192.

(** A frame: its bytes, the offsets of its units, what is known about it. *)
Definition h264_frame := (bytes * list Z * option frame_info)%type.

(** How much to read, h264_grain_wrapper.py 63-74; [ceil] of a quotient of floats is taken to be exact. *)
Definition read_size (start : bool) (prev : option Z) (buffer : bytes) : Z :=
  if start then
    match prev with
    | Some p => if zlen buffer <? p then (p - zlen buffer + READ_BLOCK_SIZE - 1) / READ_BLOCK_SIZE * READ_BLOCK_SIZE else 0
    | None => if zlen buffer =? 0 then READ_BLOCK_SIZE else 0
    end
  else READ_BLOCK_SIZE.

(** The end of _frames, h264_grain_wrapper.py 100-106. *)
Definition last_frame (ps : param_sets) (buffer : bytes) : yielded h264_frame :=
  if 0 <? zlen buffer then
    match findall 0 0 1 0 buffer with
    | [] => ([], None)
    | offsets =>
        match parse_frame_info ps buffer offsets with
        | (_, Err e) => ([], Some e)
        | (_, Ok info) => ([(buffer, offsets, info)], None)
        end
    end
  else ([], None).

(** _frames, h264_grain_wrapper.py 50-106. One round is one round of the inner loop; [start] is start_of_new_frame. *)
Fixpoint h264_frames {St} (read : reader St) (st : St) (ps : param_sets) (buffer : bytes) (prev : option Z) (start : bool) (fuel : nat)
  : yielded h264_frame :=
  match fuel with
  | O => ([], Some EFuel)
  | S fuel =>
      let size := read_size start prev buffer in
      match (if 0 <? size then read size st else (st, Ok [])) with
      | (_, Err e) => ([], Some e)
      | (st, Ok data) =>
          let buffer := buffer ++ data in
          match parse_frame ps buffer with
          | (_, Err e) => ([], Some e)
          | (ps, Ok None) =>
              if (0 <? size) && (zlen data =? 0) then last_frame ps buffer
              else h264_frames read st ps buffer prev false fuel
          | (ps, Ok (Some (n, offsets, info))) =>
              if 0 <? n then
                let (fs, e) := h264_frames read st ps (zskip n buffer) (Some n) true fuel in
                ((zfirst n buffer, offsets, info) :: fs, e)
              else h264_frames read st ps buffer (Some n) true fuel
          end
      end
  end.

(** The metadata of a coded video grain that the wrapper sets: sizes, rate, key frame flag, unit offsets. The temporal
    offset is always set to None. *)
Record h264_template := mkHt { ht_width : Z; ht_height : Z; ht_coded_width : Z; ht_coded_height : Z; ht_rate : rate }.
Record h264_meta := mkHm { hm_template : h264_template; hm_key : option bool; hm_offsets : list Z }.

(** The template after the first frame, h264_grain_wrapper.py 124-138. *)
Definition h264_update (t : h264_template) (i : option frame_info) : h264_template :=
  match i with
  | None => t
  | Some i => mkHt (fi_width i) (fi_height i) (fi_coded_width i) (fi_coded_height i) (match fi_rate i with Some r => r | None => ht_rate t end)
  end.

(** The loop of grains, h264_grain_wrapper.py 144-162. *)
Fixpoint h264_emit (k : clock) (t : h264_template) (c : Z) (fs : list h264_frame) : list (wrapped h264_meta) :=
  match fs with
  | [] => []
  | (d, offsets, info) :: fs =>
      mkWg (mkHm t (option_map fi_key info) offsets) (normalise k (from_count k c (fst (ht_rate t)) (snd (ht_rate t))) (ht_rate t)) d
      :: h264_emit k t (c + 1) fs
  end.

(** H264GrainWrapper.grains, h264_grain_wrapper.py 108-162. [first] gives the count of the first time of a range that
    starts at a time (mediatimestamp). A template whose rate is 0 is not modelled. *)
Definition h264_grains {St} (k : clock) (first : Z -> rate -> Z) (read : reader St) (t : h264_template) (origin : Z) (st : St) (fuel : nat)
  : yielded (wrapped h264_meta) :=
  match h264_frames read st (mkPs [] []) [] None true fuel with
  | ([], e) => ([], e)
  | ((d, o, i) :: fs, e) =>
      let t := h264_update t i in
      (h264_emit k t (first (normalise k origin (ht_rate t)) (ht_rate t)) ((d, o, i) :: fs), e)
  end.
