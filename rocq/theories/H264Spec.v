(** What H.264 (ITU-T H.264, clauses 7.3, 7.4 and 9.1, annex B) says about the byte streams that H264.v reads: written from
    the standard, independently of the code. *)
From Verif Require Import Base PatternTime Wrap H264.

(** ** Emulation prevention (clause 7.4.1) *)

(** Byte i is an emulation prevention byte: a 3 after two zeros. *)
Definition prevention (d : bytes) (i : nat) : bool :=
  match i with
  | S (S j) => (nth j d 1 =? 0) && (nth (S j) d 1 =? 0) && (nth i d 0 =? 3)
  | _ => false
  end.

(** All bytes from number n on, except the emulation prevention bytes. *)
Definition payload (n : nat) (d : bytes) : bytes :=
  flat_map (fun i => if prevention d i then [] else [nth i d 0]) (seq n (length d - n)).

(** What an encoder does: put a 3 before a byte of 0 to 3 that follows two zeros. [n] is the number of zeros just written. *)
Fixpoint escape (n : Z) (p : bytes) : bytes :=
  match p with
  | [] => []
  | b :: p =>
      if (n =? 2) && (b <=? 3) then 3 :: b :: escape (if b =? 0 then 1 else 0) p
      else b :: escape (if b =? 0 then n + 1 else 0) p
  end.

(** The bytes x y z stand at place i. *)
Definition stands_at (x y z : Z) (d : bytes) (i : nat) : Prop :=
  nth_error d i = Some x /\ nth_error d (S i) = Some y /\ nth_error d (S (S i)) = Some z.

(** Increasing lists. *)
Fixpoint rising (l : list Z) : Prop := match l with [] => True | x :: l => Forall (Z.lt x) l /\ rising l end.

Definition start_prefix (long : bool) : bytes := if long then [0; 0; 0; 1] else [0; 0; 1].

(** ** Syntax elements (clauses 7.2 and 9.1) *)
Inductive elem := U (n v : Z) | UE (v : Z) | SE (v : Z).
Definition F (b : bool) : elem := U 1 (if b then 1 else 0).

(** n bits of v, the most significant first. *)
Fixpoint put (n : nat) (v : Z) : bits :=
  match n with O => [] | S n => Z.testbit v (Z.of_nat n) :: put n v end.
(** The Exp-Golomb code: as many zeros as there are bits after the first one of v + 1, and v + 1. *)
Definition golomb (v : Z) : bits :=
  let k := Z.to_nat (Z.log2 (v + 1)) in repeat false k ++ put (S k) (v + 1).
(** Table 9-3: 0, 1, -1, 2, -2, ... *)
Definition signed (v : Z) : bits := golomb (if 0 <? v then 2 * v - 1 else - (2 * v)).
Definition write1 (e : elem) : bits :=
  match e with U n v => put (Z.to_nat n) v | UE v => golomb v | SE v => signed v end.
Definition write (l : list elem) : bits := flat_map write1 l.

Definition below (n v : Z) : Prop := 0 <= v < n.

(** ** Sequence parameter sets (clause 7.3.2.1.1, annex E.1.1) *)

(** Deltas of one scaling list, clause 7.3.2.1.1.1: the value after some deltas is 8 plus their sum, modulo 256; the list
    ends when it is full or its value becomes 0. *)
Definition sum (l : list Z) : Z := fold_right Z.add 0 l.
Definition scaling_ok (size : nat) (ds : list Z) : Prop :=
  (0 < length ds <= size)%nat /\
  (forall k, (0 < k < length ds)%nat -> (8 + sum (firstn k ds)) mod 256 <> 0) /\
  (length ds = size \/ (8 + sum ds) mod 256 = 0).

Record chroma_part := mkChroma {
  cp_format : Z; cp_separate : bool; cp_luma : Z; cp_chroma : Z; cp_bypass : bool; cp_scaling : option (list (option (list Z))) }.
Inductive poc_part :=
| Poc0 (log2_lsb : Z)
| Poc1 (always_zero : bool) (non_ref top_bottom : Z) (cycle : list Z)
| Poc2.
Inductive aspect_part := Aspect (idc : Z) | Extended (w h : Z).
Record vui_part := mkVui {
  vp_aspect : option aspect_part; vp_overscan : option bool; vp_signal : option (Z * bool * option (Z * Z * Z));
  vp_location : option (Z * Z); vp_timing : option (Z * Z * bool) }.
Record seq_set := mkSeq {
  q_ref : Z; q_profile : Z; q_flags : Z; q_level : Z; q_id : Z; q_chroma : option chroma_part; q_frame_num : Z; q_poc : poc_part;
  q_refs : Z; q_gaps : bool; q_width : Z; q_height : Z; q_fields : option bool; q_direct : bool; q_crop : option (Z * Z * Z * Z);
  q_vui : option vui_part }.

Definition high_profiles : list Z := [100; 110; 122; 244; 44; 83; 86; 118; 128; 138; 139; 134; 135].

Definition opt {A B} (o : option A) (f : A -> list B) : list B := match o with Some a => f a | None => [] end.
Definition present {A} (o : option A) (f : A -> list elem) : list elem := match o with Some a => F true :: f a | None => [F false] end.

Definition chroma_syntax (c : chroma_part) : list elem :=
  [UE (cp_format c)] ++ (if cp_format c =? 3 then [F (cp_separate c)] else []) ++
  [UE (cp_luma c); UE (cp_chroma c); F (cp_bypass c)] ++
  present (cp_scaling c) (flat_map (fun l => present l (map SE))).
Definition poc_syntax (p : poc_part) : list elem :=
  match p with
  | Poc0 n => [UE 0; UE n]
  | Poc1 z a b c => [UE 1; F z; SE a; SE b; UE (zlen c)] ++ map SE c
  | Poc2 => [UE 2]
  end.
Definition vui_syntax (v : vui_part) : list elem :=
  present (vp_aspect v) (fun a => match a with Aspect i => [U 8 i] | Extended w h => [U 8 255; U 16 w; U 16 h] end) ++
  present (vp_overscan v) (fun o => [F o]) ++
  present (vp_signal v) (fun '(f, r, c) => [U 3 f; F r] ++ present c (fun '(p, t, m) => [U 8 p; U 8 t; U 8 m])) ++
  present (vp_location v) (fun '(t, b) => [UE t; UE b]) ++
  present (vp_timing v) (fun '(u, s, f) => [U 32 u; U 32 s; F f]).
Definition seq_syntax (q : seq_set) : list elem :=
  [U 1 0; U 2 (q_ref q); U 5 7; U 8 (q_profile q); U 8 (q_flags q); U 8 (q_level q); UE (q_id q)] ++
  opt (q_chroma q) chroma_syntax ++
  [UE (q_frame_num q)] ++
  poc_syntax (q_poc q) ++
  [UE (q_refs q); F (q_gaps q); UE (q_width q); UE (q_height q)] ++
  (match q_fields q with None => [F true] | Some adaptive => [F false; F adaptive] end) ++
  [F (q_direct q)] ++
  present (q_crop q) (fun '(l, r, t, b) => [UE l; UE r; UE t; UE b]) ++
  present (q_vui q) vui_syntax.

Definition lists_ok (c : chroma_part) (l : list (option (list Z))) : Prop :=
  length l = (if cp_format c =? 3 then 12%nat else 8%nat) /\
  forall i ds, nth_error l i = Some (Some ds) -> scaling_ok (if (i <? 6)%nat then 16 else 64) ds.
Definition chroma_ok (c : chroma_part) : Prop :=
  below 4 (cp_format c) /\ below 7 (cp_luma c) /\ below 7 (cp_chroma c) /\ (cp_format c <> 3 -> cp_separate c = false) /\
  forall l, cp_scaling c = Some l -> lists_ok c l.
Definition poc_ok (p : poc_part) : Prop :=
  match p with Poc0 n => 0 <= n | Poc1 _ _ _ c => zlen c < 256 | Poc2 => True end.
Definition aspect_ok (a : aspect_part) : Prop :=
  match a with Aspect i => below 255 i | Extended w h => below (2 ^ 16) w /\ 0 < h < 2 ^ 16 end.
Definition signal_ok (s : Z * bool * option (Z * Z * Z)) : Prop :=
  let '(f, _, c) := s in
  below 8 f /\ match c with Some (p, t, m) => below 256 p /\ below 256 t /\ below 256 m | None => True end.
Definition vui_ok (v : vui_part) : Prop :=
  (forall a, vp_aspect v = Some a -> aspect_ok a) /\
  (forall s, vp_signal v = Some s -> signal_ok s) /\
  (forall t b, vp_location v = Some (t, b) -> 0 <= t /\ 0 <= b) /\
  (forall u s f, vp_timing v = Some (u, s, f) -> 0 < u < 2 ^ 32 /\ 0 < s < 2 ^ 32).
Definition seq_ok (q : seq_set) : Prop :=
  below 4 (q_ref q) /\ below 256 (q_profile q) /\ below 256 (q_flags q) /\ below 256 (q_level q) /\ below 32 (q_id q) /\
  (match q_chroma q with Some c => In (q_profile q) high_profiles /\ chroma_ok c | None => ~ In (q_profile q) high_profiles end) /\
  0 <= q_frame_num q /\ poc_ok (q_poc q) /\ 0 <= q_refs q /\ 0 <= q_width q /\ 0 <= q_height q /\
  (forall l r t b, q_crop q = Some (l, r, t, b) -> 0 <= l /\ 0 <= r /\ 0 <= t /\ 0 <= b) /\
  (forall v, q_vui q = Some v -> vui_ok v).

(** The values of the elements; those that are absent are inferred to be as clause 7.4.2.1.1 and annex E.2.1 say. *)
Definition separate_planes (q : seq_set) : bool := match q_chroma q with Some c => cp_separate c | None => false end.
Definition chroma_format (q : seq_set) : Z := match q_chroma q with Some c => cp_format c | None => 1 end.
Definition frames_only (q : seq_set) : bool := match q_fields q with None => true | Some _ => false end.
Definition vui_of {A} (q : seq_set) (f : vui_part -> option A) : option A := match q_vui q with Some v => f v | None => None end.
Definition or_else {A} (d : A) (o : option A) : A := match o with Some a => a | None => d end.
Definition is_some {A} (o : option A) : bool := match o with Some _ => true | None => false end.
Definition num (b : bool) : Z := if b then 1 else 0.
Definition colour (q : seq_set) : option (Z * Z * Z) := match vui_of q vp_signal with Some (_, _, c) => c | None => None end.

(** The object that holds them. *)
Definition sps_of (q : seq_set) : sps := {|
  profile_idc := q_profile q; sps_flags := q_flags q; level_idc := q_level q; seq_parameter_set_id := q_id q;
  chroma_format_idc := chroma_format q;
  chroma_array_type := if separate_planes q then 0 else chroma_format q;
  separate_colour_plane_flag := num (separate_planes q);
  bit_depth_luma_minus8 := match q_chroma q with Some c => cp_luma c | None => 0 end;
  bit_depth_chroma_minus8 := match q_chroma q with Some c => cp_chroma c | None => 0 end;
  log2_max_frame_num_minus4 := q_frame_num q;
  pic_order_cnt_type := match q_poc q with Poc0 _ => 0 | Poc1 _ _ _ _ => 1 | Poc2 => 2 end;
  log2_max_pic_order_cnt_lsb_minus4 := match q_poc q with Poc0 n => n | _ => 0 end;
  delta_pic_order_always_zero_flag := match q_poc q with Poc1 z _ _ _ => num z | _ => 0 end;
  pic_width_in_mbs_minus1 := q_width q; pic_height_in_map_units_minus1 := q_height q; frame_mbs_only_flag := num (frames_only q);
  frame_crop_left_offset := match q_crop q with Some (l, _, _, _) => l | None => 0 end;
  frame_crop_right_offset := match q_crop q with Some (_, r, _, _) => r | None => 0 end;
  frame_crop_top_offset := match q_crop q with Some (_, _, t, _) => t | None => 0 end;
  frame_crop_bottom_offset := match q_crop q with Some (_, _, _, b) => b | None => 0 end;
  vui_parameters_present_flag := num (is_some (q_vui q));
  aspect_ratio_idc := match vui_of q vp_aspect with Some (Aspect i) => i | Some (Extended _ _) => 255 | None => 0 end;
  sar_width := match vui_of q vp_aspect with Some (Extended w _) => w | _ => 0 end;
  sar_height := match vui_of q vp_aspect with Some (Extended _ h) => h | _ => 0 end;
  video_signal_type_present_flag := num (is_some (vui_of q vp_signal));
  video_format := match vui_of q vp_signal with Some (f, _, _) => f | None => 5 end;
  colour_description_present_flag := num (is_some (colour q));
  colour_primaries := match colour q with Some (p, _, _) => p | None => 2 end;
  transfer_characteristics := match colour q with Some (_, t, _) => t | None => 2 end;
  matrix_coefficients := match colour q with Some (_, _, m) => m | None => 2 end;
  timing_info_present_flag := num (is_some (vui_of q vp_timing));
  num_units_in_tick := match vui_of q vp_timing with Some (u, _, _) => u | None => 0 end;
  time_scale := match vui_of q vp_timing with Some (_, s, _) => s | None => 0 end;
  fixed_frame_rate_flag := match vui_of q vp_timing with Some (_, _, f) => num f | None => 0 end |}.

(** ** Picture parameter sets (clause 7.3.2.2) *)
Inductive group_map :=
| Interleaved (runs : list Z)
| Dispersed
| Foreground (corners : list (Z * Z))
| Evolving (kind : Z) (direction : bool) (rate : Z)
| Explicit (ids : list Z).
Record pic_set := mkPic {
  i_ref : Z; i_id : Z; i_seq : Z; i_entropy : bool; i_bottom : bool; i_groups : option (Z * group_map); i_l0 : Z; i_l1 : Z;
  i_weighted : bool; i_bipred : Z; i_qp : Z; i_qs : Z; i_chroma_qp : Z; i_deblocking : bool; i_intra : bool; i_redundant : bool }.

(** Ceil(Log2(n + 1)) for n + 1 slice groups. *)
Definition group_bits (n : Z) : Z := Z.log2_up (n + 1).
Definition group_syntax (n : Z) (g : group_map) : list elem :=
  match g with
  | Interleaved runs => UE 0 :: map UE runs
  | Dispersed => [UE 1]
  | Foreground cs => UE 2 :: flat_map (fun '(a, b) => [UE a; UE b]) cs
  | Evolving k d r => [UE k; F d; UE r]
  | Explicit ids => UE 6 :: UE (zlen ids - 1) :: map (U (group_bits n)) ids
  end.
Definition pic_syntax (p : pic_set) : list elem :=
  [U 1 0; U 2 (i_ref p); U 5 8; UE (i_id p); UE (i_seq p); F (i_entropy p); F (i_bottom p)] ++
  (match i_groups p with None => [UE 0] | Some (n, g) => UE n :: group_syntax n g end) ++
  [UE (i_l0 p); UE (i_l1 p); F (i_weighted p); U 2 (i_bipred p); SE (i_qp p); SE (i_qs p); SE (i_chroma_qp p);
   F (i_deblocking p); F (i_intra p); F (i_redundant p)].
Definition group_ok (n : Z) (g : group_map) : Prop :=
  0 < n /\
  match g with
  | Interleaved runs => zlen runs = n + 1 /\ Forall (Z.le 0) runs
  | Dispersed => True
  | Foreground cs => zlen cs = n /\ Forall (fun '(a, b) => 0 <= a /\ 0 <= b) cs
  | Evolving k _ r => 3 <= k <= 5 /\ 0 <= r
  | Explicit ids => 0 < zlen ids /\ Forall (below (2 ^ group_bits n)) ids
  end.
Definition pic_ok (p : pic_set) : Prop :=
  below 4 (i_ref p) /\ 0 <= i_id p /\ 0 <= i_seq p /\ (forall n g, i_groups p = Some (n, g) -> group_ok n g) /\
  0 <= i_l0 p /\ 0 <= i_l1 p /\ below 4 (i_bipred p).
(** The explicit map is only read as it was written when the two widths happen to be the same. *)
Definition readable_groups (p : pic_set) : Prop :=
  forall n ids, i_groups p = Some (n, Explicit ids) -> group_bits n = Z.log2 (zlen ids) /\ zlen ids < 2 ^ 64.
Definition pps_of (p : pic_set) : pps :=
  {| pps_sps_id := i_seq p; H264.pps_id := i_id p; pps_bottom_field := num (i_bottom p); pps_redundant := num (i_redundant p) |}.

(** ** Slice headers (clause 7.3.3), up to redundant_pic_cnt *)
Record slice_part := mkSlice {
  s_ref : Z; s_unit : Z; s_first : Z; s_type : Z; s_pic : Z; s_plane : Z; s_frame_num : Z; s_field : bool; s_bottom : bool; s_idr : Z;
  s_lsb : Z; s_delta_bottom : Z; s_delta_0 : Z; s_delta_1 : Z; s_redundant : Z }.
Definition frame_deltas (p : pic_set) (s : slice_part) : bool := i_bottom p && negb (s_field s).
Definition slice_syntax (q : seq_set) (p : pic_set) (s : slice_part) : list elem :=
  [U 1 0; U 2 (s_ref s); U 5 (s_unit s); UE (s_first s); UE (s_type s); UE (s_pic s)] ++
  (if separate_planes q then [U 2 (s_plane s)] else []) ++
  [U (q_frame_num q + 4) (s_frame_num s)] ++
  (if frames_only q then [] else F (s_field s) :: if s_field s then [F (s_bottom s)] else []) ++
  (if s_unit s =? 5 then [UE (s_idr s)] else []) ++
  (match q_poc q with
   | Poc0 n => U (n + 4) (s_lsb s) :: if frame_deltas p s then [SE (s_delta_bottom s)] else []
   | Poc1 z _ _ _ => if z then [] else SE (s_delta_0 s) :: if frame_deltas p s then [SE (s_delta_1 s)] else []
   | Poc2 => []
   end) ++
  (if i_redundant p then [UE (s_redundant s)] else []).
(** Elements that are absent are inferred to be 0. *)
Definition slice_ok (q : seq_set) (p : pic_set) (s : slice_part) : Prop :=
  below 4 (s_ref s) /\ In (s_unit s) [1; 2; 5] /\ 0 <= s_first s /\ 0 <= s_type s /\ 0 <= s_pic s /\ below 4 (s_plane s) /\
  below (2 ^ (q_frame_num q + 4)) (s_frame_num s) /\
  (frames_only q = true -> s_field s = false) /\ (s_field s = false -> s_bottom s = false) /\
  (if s_unit s =? 5 then 0 <= s_idr s else s_idr s = 0) /\
  (match q_poc q with Poc0 n => below (2 ^ (n + 4)) (s_lsb s) | _ => s_lsb s = 0 end) /\
  (match q_poc q with Poc0 _ => frame_deltas p s = false -> s_delta_bottom s = 0 | _ => s_delta_bottom s = 0 end) /\
  (match q_poc q with
   | Poc1 false _ _ _ => frame_deltas p s = false -> s_delta_1 s = 0
   | _ => s_delta_0 s = 0 /\ s_delta_1 s = 0
   end) /\
  (if i_redundant p then 0 <= s_redundant s else s_redundant s = 0).
Definition header_of (s : slice_part) : slice_header := {|
  sh_type := s_type s; sh_ref_idc := s_ref s; sh_unit_type := s_unit s; sh_pps_id := s_pic s; sh_field := num (s_field s);
  sh_idr := num (s_unit s =? 5); sh_idr_id := s_idr s; sh_lsb := s_lsb s; sh_delta_bottom := s_delta_bottom s;
  sh_delta_0 := s_delta_0 s; sh_delta_1 := s_delta_1 s; sh_redundant := s_redundant s; sh_frame_num := s_frame_num s;
  sh_bottom := num (s_bottom s) |}.

(** The sets a parser holds. *)
Definition holds (ps : param_sets) (q : seq_set) (p : pic_set) (id : Z) : Prop :=
  dget id (pps_sets ps) = Some (pps_of p) /\ dget (i_seq p) (sps_sets ps) = Some (sps_of q).
