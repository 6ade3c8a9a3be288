(** What H.264 says about units, access units and the pictures they hold: clauses 7.3.1, 7.4.1.2, 7.4.2.1.1, annexes B and E.
    Written from the standard, independently of the code. *)
From Verif Require Import Base PatternTime Wrap H264 H264Spec.

(** ** Units (clauses 7.3.1 and 7.3.2.11, annex B) *)

(** Bits as bytes, the last one padded with zeros. *)
Fixpoint pack (n : nat) (b : bits) : bytes :=
  match n with
  | O => []
  | S n => match b with [] => [] | _ => bits_value (firstn 8 (b ++ repeat false 7)) :: pack n (skipn 8 b) end
  end.
(** The raw byte sequence payload: the bits, a one, zeros up to a whole byte. *)
Definition rbsp_of (b : bits) : bytes := pack (S (length b)) (b ++ [true]).

(** A unit and the bits that follow those that are read of it; for a slice also the number of cabac_zero_words at its end. *)
Inductive nal :=
| SeqU (q : seq_set) (t : bits)
| PicU (p : pic_set) (t : bits)
| SliceU (q : seq_set) (p : pic_set) (s : slice_part) (t : bits * nat)
| OtherU (ref type : Z) (t : bits).
Definition nal_bits (n : nal) : bits :=
  match n with
  | SeqU q t => write (seq_syntax q) ++ t
  | PicU p t => write (pic_syntax p) ++ t
  | SliceU q p s t => write (slice_syntax q p s) ++ fst t
  | OtherU r k t => write [U 1 0; U 2 r; U 5 k] ++ t
  end.
(** Their type and the importance given to them. *)
Definition type_of (n : nal) : Z :=
  match n with SeqU _ _ => 7 | PicU _ _ => 8 | SliceU _ _ s _ => s_unit s | OtherU _ t _ => t end.
Definition ref_of (n : nal) : Z :=
  match n with SeqU q _ => q_ref q | PicU p _ => i_ref p | SliceU _ _ s _ => s_ref s | OtherU r _ _ => r end.
Definition words_of (n : nal) : nat := match n with SliceU _ _ _ t => snd t | _ => O end.
(** A payload that ends in zero words is closed by a 3 (clause 7.4.1). *)
Definition nal_body (n : nal) : bytes :=
  escape 0 (rbsp_of (nal_bits n) ++ zeros (2 * words_of n)) ++ match words_of n with O => [] | _ => [3] end.
(** A unit in a byte stream (annex B.1), after any number of zero bytes. These are, for the first unit, leading_zero_8bits and
    zero_byte; for others the trailing_zero_8bits of the unit before and zero_byte. *)
Definition unit_ := (nat * nal)%type.
Definition unit_bytes (u : unit_) : bytes := zeros (fst u) ++ 0 :: 0 :: 1 :: nal_body (snd u).

(** ** The picture (clause 7.4.2.1.1, annex E) *)
Definition crop_unit_x (q : seq_set) : Z :=
  if separate_planes q then 1 else match chroma_format q with 1 => 2 | 2 => 2 | _ => 1 end.
Definition field_factor (q : seq_set) : Z := if frames_only q then 1 else 2.
Definition crop_unit_y (q : seq_set) : Z :=
  (if separate_planes q then 1 else match chroma_format q with 1 => 2 | _ => 1 end) * field_factor q.
Definition crop_of (q : seq_set) : Z * Z * Z * Z := or_else (0, 0, 0, 0) (q_crop q).
(** Table E-1. *)
Definition sar_table : list (Z * Z) :=
  [(0, 1); (1, 1); (12, 11); (10, 11); (16, 11); (40, 33); (24, 11); (20, 11); (32, 11); (80, 33); (18, 11); (15, 11); (64, 33);
   (160, 99); (4, 3); (3, 2); (2, 1)].
Definition intra (s : slice_part) : bool := existsb (Z.eqb (s_type s)) [2; 4; 7; 9].

(** What is known about a picture of the given slices, the first of which is s. *)
Definition info_of (q : seq_set) (s : slice_part) (slices : list slice_part) : frame_info :=
  let '(l, r, t, b) := crop_of q in
  let width := 16 * (q_width q + 1) in
  let height := 16 * field_factor q * (q_height q + 1) in {|
  fi_profile := q_profile q; fi_level := q_level q; fi_flags := q_flags q;
  fi_bit_depth := 8 + match q_chroma q with Some c => cp_luma c | None => 0 end;
  fi_coded_width := width; fi_coded_height := height;
  fi_width := width - crop_unit_x q * (l + r); fi_height := height - crop_unit_y q * (t + b);
  fi_rate := option_map (fun '(u, n, _) => fraction n (u * if s_field s then 1 else 2)) (vui_of q vp_timing);
  fi_fixed := option_map snd (vui_of q vp_timing);
  fi_aspect := match vui_of q vp_aspect with
               | Some (Extended w h) => Some (fraction w h)
               | Some (Aspect i) => option_map (fun '(w, h) => fraction w h) (nth_error sar_table (Z.to_nat i))
               | None => Some (0, 1)
               end;
  fi_key := forallb intra slices |}.

(** ** Access units (clause 7.4.1.2) *)

(** The parameter sets sent so far. *)
Record known := mkKnown { k_seq : Z -> option seq_set; k_pic : Z -> option pic_set }.
Definition nothing : known := mkKnown (fun _ => None) (fun _ => None).
Definition learn (k : known) (u : unit_) : known :=
  match snd u with
  | SeqU q _ => mkKnown (fun id => if id =? q_id q then Some q else k_seq k id) (k_pic k)
  | PicU p _ => mkKnown (k_seq k) (fun id => if id =? i_id p then Some p else k_pic k id)
  | _ => k
  end.
Definition refers (k : known) (q : seq_set) (p : pic_set) (s : slice_part) : Prop :=
  k_pic k (s_pic s) = Some p /\ k_seq k (i_seq p) = Some q.

(** Clause 7.4.1.2.4: s starts another picture than the one of f. *)
Definition new_picture (q : seq_set) (s f : slice_part) : bool :=
  negb (s_frame_num s =? s_frame_num f) ||
  negb (s_pic s =? s_pic f) ||
  negb (Bool.eqb (s_field s) (s_field f)) ||
  (s_field s && negb (Bool.eqb (s_bottom s) (s_bottom f))) ||
  (negb (s_ref s =? s_ref f) && ((s_ref s =? 0) || (s_ref f =? 0))) ||
  (match q_poc q with
   | Poc0 _ => negb (s_lsb s =? s_lsb f) || negb (s_delta_bottom s =? s_delta_bottom f)
   | Poc1 _ _ _ _ => negb (s_delta_0 s =? s_delta_0 f) || negb (s_delta_1 s =? s_delta_1 f)
   | Poc2 => false
   end) ||
  negb (Bool.eqb (s_unit s =? 5) (s_unit f =? 5)) ||
  ((s_unit s =? 5) && (s_unit f =? 5) && negb (s_idr s =? s_idr f)).

(** An access unit: units before the first slice, the slice, others, and the number of zero bytes at its end
    (trailing_zero_8bits). *)
Record access_unit := mkAu {
  a_before : list unit_; a_lead : nat; a_seq : seq_set; a_pic : pic_set; a_first : slice_part; a_data : bits * nat; a_after : list unit_;
  a_zeros : nat }.
Definition a_units (a : access_unit) : list unit_ :=
  a_before a ++ (a_lead a, SliceU (a_seq a) (a_pic a) (a_first a) (a_data a)) :: a_after a.
Definition a_bytes (a : access_unit) : bytes := flat_map unit_bytes (a_units a) ++ zeros (a_zeros a).
(** The zero bytes before its first start code. *)
Definition first_zeros (a : access_unit) : nat := match a_before a with u :: _ => fst u | [] => a_lead a end.

(** Before a slice: parameter sets, delimiters, supplemental information and other units that are not slices. *)
Definition before_ok (n : nal) : Prop :=
  match n with
  | SeqU q _ => seq_ok q
  | PicU p _ => pic_ok p /\ readable_groups p
  | OtherU r t _ => below 4 r /\ (t = 6 \/ 9 <= t <= 31)
  | SliceU _ _ _ _ => False
  end.
(** A unit that starts an access unit. (Type 14 also does, and types 15 to 18 do.) *)
Definition opens (n : nal) : Prop :=
  match n with
  | SeqU _ _ | PicU _ _ => True
  | OtherU _ t _ => t = 6 \/ t = 9 \/ 15 <= t <= 18
  | SliceU _ _ _ _ => False
  end.
Definition slice_known (k : known) (q : seq_set) (p : pic_set) (s : slice_part) : Prop :=
  seq_ok q /\ slice_ok q p s /\ refers k q p s.
(** After the first slice f: more slices of the picture, redundant slices, their other data partitions, and units that start nothing. All the primary
    slices have the same nal_ref_idc; see C43_ref_idc_refuted. *)
Definition after_ok (k : known) (f : slice_part) (n : nal) : Prop :=
  match n with
  | SliceU q p s _ => slice_known k q p s /\ (s_redundant s = 0 -> new_picture q s f = false /\ s_ref s = s_ref f)
  | OtherU r t _ => below 4 r /\ (t = 0 \/ t = 3 \/ t = 4 \/ 10 <= t <= 14 \/ 19 <= t <= 31)
  | _ => False
  end.
Definition au_ok (k : known) (a : access_unit) : Prop :=
  Forall (fun u => before_ok (snd u)) (a_before a) /\
  slice_known k (a_seq a) (a_pic a) (a_first a) /\ s_redundant (a_first a) = 0 /\
  Forall (fun u => after_ok k (a_first a) (snd u)) (a_after a).
(** It can be told that b starts after the access unit a: by its first unit, and by the zero_byte that annex B.1.2 demands before
    that, which may be missing if no other zeros come before. *)
Definition apart (a b : access_unit) : Prop :=
  match a_before b with
  | [] => new_picture (a_seq b) (a_first b) (a_first a) = true
  | u :: _ => opens (snd u)
  end /\
  (first_zeros b = 1%nat \/ (first_zeros b = 0%nat /\ a_zeros a = 0%nat)).

Fixpoint stream_ok (k : known) (f : option access_unit) (l : list access_unit) : Prop :=
  match l with
  | [] => True
  | a :: l =>
      let k := fold_left learn (a_before a) k in
      au_ok k a /\ (match f with None => True | Some f => apart f a end) /\ stream_ok k (Some a) l
  end.

(** Where the start codes (three bytes) of units are. *)
Fixpoint codes_from (i : Z) (l : list unit_) : list Z :=
  match l with
  | [] => []
  | u :: l => (i + Z.of_nat (fst u)) :: codes_from (i + zlen (unit_bytes u)) l
  end.

(** The primary slices of a list of units. *)
Definition primary (u : unit_) : list slice_part :=
  match snd u with SliceU _ _ s _ => if s_redundant s =? 0 then [s] else [] | _ => [] end.
(** Those up to the first redundant one, or the first data partition B or C. *)
Fixpoint leading (l : list unit_) : list slice_part :=
  match l with
  | [] => []
  | u :: l =>
      match snd u with
      | SliceU _ _ s _ => if s_redundant s =? 0 then s :: leading l else []
      | OtherU _ t _ => if t <=? 5 then [] else leading l
      | _ => leading l
      end
  end.

Definition frame_of (slices : list unit_ -> list slice_part) (a : access_unit) : h264_frame :=
  (a_bytes a, codes_from 0 (a_units a), Some (info_of (a_seq a) (a_first a) (slices (a_units a)))).
(** The frames of a stream. The key frame flag of the last one only takes the slices up to the first redundant one into
    account, which are all of them if the primary slices come first as clause 7.4.1.2.3 demands; or up to the first data partition B
    or C, which are not all of them, see C43_partitions_refuted. *)
Fixpoint frames_of (l : list access_unit) : list h264_frame :=
  match l with
  | [] => []
  | [a] => [frame_of leading a]
  | a :: l => frame_of (flat_map primary) a :: frames_of l
  end.

(** What the grains say: the sizes of the first picture, and its rate if the stream gives one. *)
Definition described (t : h264_template) (i : option frame_info) (t' : h264_template) : Prop :=
  match i with
  | None => t' = t
  | Some i =>
      ht_width t' = fi_width i /\ ht_height t' = fi_height i /\ ht_coded_width t' = fi_coded_width i /\ ht_coded_height t' = fi_coded_height i /\
      (forall r, fi_rate i = Some r -> ht_rate t' = r) /\ (fi_rate i = None -> ht_rate t' = ht_rate t)
  end.
