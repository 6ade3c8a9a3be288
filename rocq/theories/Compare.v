(** /repo/mediagrains/comparison: _internal.py, options.py and __init__.py. The human readable messages are not modelled,
    but making them can raise: keys of mappings become part of a format string.
    An [ExpectedDifference] or [PSNR] option is its path and its matcher, a function of the difference in nanoseconds (or
    counts) or of the values of compute_psnr. *)
From Coq Require Import String.
From Verif Require Import Base PyValue Json CogEnums GrainObj Difflib StrFormat.
Local Open Scope list_scope.

(** options.py 166-207. *)
Inductive copt :=
| OExclude (p : str)
| OInclude (p : str)
| OExpect (p : str) (m : Z -> bool)
| OPsnr (p : str) (m : list Z -> bool).
(** options.py 46-53: [Exclude.name]. *)
Definition path (name : str) : str := $"{}." ++ name.
Definition Exclude (name : str) : copt := OExclude (path name).
Definition Include (name : str) : copt := OInclude (path name).

(** _internal.py 41-84: a result; the key of a child of a list is its index, of a mapping its name. *)
Inductive ckey := KIndex (n : Z) | KName (s : str).
Inductive cres := CR (id : str) (attr : option str) (key : option ckey) (opts : list copt) (equal : bool) (children : list cres).
Definition r_id (r : cres) := let '(CR i _ _ _ _ _) := r in i.
Definition r_attr (r : cres) := let '(CR _ a _ _ _ _) := r in a.
Definition r_key (r : cres) := let '(CR _ _ k _ _ _) := r in k.
Definition r_opts (r : cres) := let '(CR _ _ _ o _ _) := r in o.
Definition r_equal (r : cres) := let '(CR _ _ _ _ e _) := r in e.
Definition r_children (r : cres) := let '(CR _ _ _ _ _ c) := r in c.

(** ComparisonResult.excluded, 129-143. *)
Definition alternatives : list (str * str) :=
  [($"{}.src_id", $"{}.source_id"); ($"{}.cog_frame_format", $"{}.format"); ($"{}.cog_audio_format", $"{}.format");
   ($"{}.cog_frame_layout", $"{}.layout")].
Definition excludes (id : str) (o : copt) : bool :=
  match o with
  | OExclude p => zlist_eqb id p || match dget id alternatives with Some q => zlist_eqb p q | None => false end
  | _ => false
  end.
Definition excluded_by (opts : list copt) (id : str) : bool := existsb (excludes id) opts.
Definition excluded (r : cres) : bool := excluded_by (r_opts r) (r_id r).
(** [all(c or c.excluded() for c in children)]. *)
Definition all_agree (l : list cres) : bool := forallb (fun c => r_equal c || excluded c) l.

(** failing_attributes, failing_keys, subcomparison_for_attribute, subcomparison_for_key: 161-173, 199-222. *)
Definition failing_attributes (r : cres) : list str :=
  flat_map (fun c => match r_attr c with Some a => if r_equal c then [] else [a] | None => [] end) (r_children r).
Definition failing_keys (r : cres) : list ckey :=
  flat_map (fun c => match r_key c with Some k => if r_equal c then [] else [k] | None => [] end) (r_children r).
Definition subcomparison_for_attribute (name : str) (r : cres) : res cres :=
  match find (fun c => opt_eqb zlist_eqb (r_attr c) (Some name)) (r_children r) with Some c => Ok c | None => Err EKey end.

(** EqualityComparisonResult, 225-231. *)
Definition equality (id : str) (opts : list copt) (attr : option str) (key : option ckey) (a b : pv) : cres :=
  CR id attr key opts (py_eq a b) [].
(** AOnly, BOnly and Failing: never equal, 456-479, 879-888. *)
Definition failing (id : str) (opts : list copt) (attr : option str) (key : option ckey) : cres := CR id attr key opts false [].

(** ** DataEqualityComparisonResult, 234-354. *)
(** The struct codes used; [CS24]: words_per_sample = 3, force_signed. Native sizes of a 64-bit Linux, little-endian. *)
Inductive code := CB | Ch | CH | Ci | CI | Cl | Cf | Cd | CS24.
Definition code_size (c : code) : Z := match c with CB => 1 | Ch | CH => 2 | Ci | CI | Cf => 4 | Cl | Cd => 8 | CS24 => 3 end.
Definition code_signed (c : code) : bool := match c with Ch | Ci | Cl | CS24 => true | _ => false end.
(** A sample: an integer, or a float by its bit pattern with the number of bits of its fraction. *)
Inductive word := WInt (z : Z) | WFloat (frac bits : Z).
Fixpoint le_value (l : bytes) : Z := match l with [] => 0 | b :: l => b + 256 * le_value l end.
Definition signed (size v : Z) : Z := if v >=? 2 ^ (8 * size - 1) then v - 2 ^ (8 * size) else v.
Definition word_of (c : code) (l : bytes) : word :=
  match c with
  | Cf => WFloat 23 (le_value l)
  | Cd => WFloat 52 (le_value l)
  | _ => WInt (if code_signed c then signed (code_size c) (le_value l) else le_value l)
  end.
(** Equality of numbers; for floats IEEE 754: NaN equals nothing and the zeros are equal. *)
Definition nan (frac bits : Z) : bool :=
  let e := if frac =? 23 then 8 else 11 in (Z.land (Z.shiftr bits frac) (2 ^ e - 1) =? 2 ^ e - 1) && negb (Z.land bits (2 ^ frac - 1) =? 0).
Definition float_zero (frac bits : Z) : bool := Z.land bits (2 ^ (if frac =? 23 then 31 else 63) - 1) =? 0.
Definition word_eq (a b : word) : bool :=
  match a, b with
  | WInt x, WInt y => x =? y
  | WFloat f x, WFloat g y => (f =? g) && negb (nan f x) && negb (nan g y) && ((x =? y) || (float_zero f x && float_zero g y))
  | _, _ => false
  end.
(** Words of n bytes; what is left over at the end is dropped. *)
Fixpoint chunks (fuel : nat) (n : Z) (l : bytes) : list bytes :=
  match fuel with
  | O => []
  | S fuel => if zlen l <? n then [] else zfirst n l :: chunks fuel n (zskip n l)
  end.
(** [struct.unpack]: the size must be exact, except for 24-bit samples, which are put together from single bytes: 262-297. *)
Definition unpack (c : code) (l : bytes) : res (list word) :=
  match c with
  | CS24 => Ok (map (word_of c) (chunks (length l) 3 l))
  | _ => if zlen l mod code_size c =? 0 then Ok (map (word_of c) (chunks (length l) (code_size c) l)) else Err EStruct
  end.
Definition unpack_opt (c : code) (o : option bytes) : res (option (list word)) :=
  match o with None => Ok None | Some l => rbind (unpack c l) (fun w => Ok (Some w)) end.
Definition data_equality (c : code) (id : str) (opts : list copt) (attr : option str) (a b : option bytes) : res cres :=
  rbind (unpack_opt c a) (fun a => rbind (unpack_opt c b) (fun b =>
  Ok (CR id attr None opts
        (match a, b with
         | None, None => true
         | Some a, Some b => if excluded_by opts id then false else ratio_one word_eq a b
         | _, _ => false
         end) []))).

(** ** DifferenceComparisonResult, 386-419; the expected difference is 0. *)
Definition expectations (id : str) (opts : list copt) : list (Z -> bool) :=
  flat_map (fun o => match o with OExpect p m => if zlist_eqb id p then [m] else [] | _ => [] end) opts.
Definition difference (id : str) (opts : list copt) (attr : option str) (key : option ckey) (a b : Z) : cres :=
  CR id attr key opts (match expectations id opts with [] => a - b =? 0 | ms => forallb (fun m => m (a - b)) ms end) [].
Definition as_number (v : pv) : res Z := match as_q v with Some (z, 1) => Ok z | _ => Err EType end.
Definition as_instant (v : pv) : res Z := match v with PTime t => Ok t | _ => Err EType end.

(** ** PSNRComparisonResult, 422-453. [psnr] is compute_psnr; None is NotImplementedError. *)
Definition psnr_matchers (id : str) (opts : list copt) : list (list Z -> bool) :=
  flat_map (fun o => match o with OPsnr p m => if zlist_eqb id p then [m] else [] | _ => [] end) opts.
Definition psnr_result (psnr : gobj -> gobj -> res (option (list Z))) (id : str) (opts : list copt) (a b : gobj) : res cres :=
  if excluded_by opts id then Ok (failing id opts None None)
  else rbind (psnr a b) (fun p =>
    Ok (CR id None None opts (match p with None => false | Some v => forallb (fun m => m v) (psnr_matchers id opts) end) [])).

(** ** OrderedContainerComparisonResult, 482-513, and MappingContainerComparisonResult, 583-610. *)
(** repr of a key, a string: quotes and the usual escapes; all characters from 161 on count as printable. *)
Definition repr_char (q c : Z) : str :=
  if (c =? 92) || (c =? q) then [92; c] else if c =? 10 then [92; 110] else if c =? 13 then [92; 114] else if c =? 9 then [92; 116]
  else if (c <? 32) || ((127 <=? c) && (c <? 161)) then [92; 120; hex_digit (c / 16); hex_digit (c mod 16)] else [c].
Definition repr (s : str) : str :=
  let q := if existsb (Z.eqb 39) s && negb (existsb (Z.eqb 34) s) then 34 else 39 in q :: flat_map (repr_char q) s ++ [q].
Definition at_index (id : str) (n : Z) : str := id ++ $"[" ++ int_text n ++ $"]".
Definition at_key (id k : str) : str := id ++ $"[" ++ repr k ++ $"]".
Fixpoint only (id : str) (opts : list copt) {A} (n : Z) (l : list A) : list cres :=
  match l with [] => [] | _ :: l => failing (at_index id n) opts None (Some (KIndex n)) :: only id opts (n + 1) l end.
Fixpoint elements (id : str) (opts : list copt) {A} (cmp : str -> ckey -> A -> A -> res cres) (n : Z) (a b : list A) : res (list cres) :=
  match a, b with
  | x :: a, y :: b => rbind (cmp (at_index id n) (KIndex n) x y) (fun c => rbind (elements id opts cmp (n + 1) a b) (fun r => Ok (c :: r)))
  | [], b => Ok (only id opts n b)
  | a, [] => Ok (only id opts n a)
  end.
Definition ordered {A} (cmp : str -> ckey -> A -> A -> res cres) (id : str) (opts : list copt) (attr : option str) (a b : list A) : res cres :=
  let len := equality ($"len(" ++ id ++ $")") opts None None (PInt (zlen a)) (PInt (zlen b)) in
  rbind (elements id opts cmp 0 a b) (fun l => let l := len :: l in Ok (CR id attr None opts (all_agree l) l)).
Definition both (id : str) (opts : list copt) (a b : dict) (kv : str * pv) : list cres :=
  let k := fst kv in
  match dget k a, dget k b with Some v, Some w => [equality (at_key id k) opts None (Some (KName k)) v w] | _, _ => [] end.
Definition missing (id : str) (opts : list copt) (b : dict) (kv : str * pv) : list cres :=
  match dget (fst kv) b with Some _ => [] | None => [failing (at_key id (fst kv)) opts None (Some (KName (fst kv)))] end.
(** The message of each child formats its identifier, in order. *)
Definition mapping (opts : list copt) (id : str) (key : ckey) (a b : dict) : res cres :=
  let l := flat_map (both id opts a b) a ++ flat_map (missing id opts b) a ++ flat_map (missing id opts a) b in
  rbind (map_res (fun c => id_format (r_id c) $"a") l) (fun _ => Ok (CR id None (Some key) opts (all_agree l) l)).

(** ** GrainComparisonResult, 613-876. *)
Fixpoint equalities (get : gobj -> str -> res pv) (opts : list copt) (names : list str) (a b : gobj) : res (list cres) :=
  match names with
  | [] => Ok []
  | n :: names =>
      rbind (get a n) (fun x => rbind (get b n) (fun y =>
      rbind (equalities get opts names a b) (fun r => Ok (equality (path n) opts (Some n) None x y :: r))))
  end.
Fixpoint instants (opts : list copt) (names : list str) (a b : gobj) : res (list cres) :=
  match names with
  | [] => Ok []
  | n :: names =>
      rbind (rbind (getattr a n) as_instant) (fun x => rbind (rbind (getattr b n) as_instant) (fun y =>
      rbind (instants opts names a b) (fun r => Ok (difference (path n) opts (Some n) None x y :: r))))
  end.
(** [getattr(a, key, None)]. *)
Definition getattr_or_none (o : gobj) (name : str) : res pv := match getattr o name with Err EAttr => Ok PNone | r => r end.
Definition code_for_audio (f : Z) : code :=
  if member [0x0; 0x1; 0x2] f then Ch else if member [0x4; 0x5; 0x6] f then CS24 else if member [0x8; 0x9; 0xa] f then Ci
  else if member [0xc] f then Cl else if member [0x18; 0x19; 0x1a] f then Cf else if member [0x2c; 0x2d; 0x2e] f then Cd else CB.
Definition code_for_video (f : Z) : code :=
  if IS_COMPRESSED f then CB else if f =? v210 then CI else if f =? v216 then CH else if IS_PACKED f then CB
  else if BYTES_PER_VALUE f =? 1 then CB else if BYTES_PER_VALUE f =? 2 then CH else CI.
Definition data_path : str := path $"data".
(** The data child when the formats are the same: [code_of] is None for the types without PSNR. *)
Definition data_child (psnr : gobj -> gobj -> res (option (list Z))) (allow_psnr : bool) (c : code) (opts : list copt) (a b : gobj) : res cres :=
  if allow_psnr && negb (match psnr_matchers data_path opts with [] => true | _ => false end)
  then psnr_result psnr data_path opts a b
  else rbind (get_data a) (fun x => rbind (get_data b) (fun y => data_equality c data_path opts (Some $"data") x y)).
(** A format attribute as a number. *)
Definition format_of (o : gobj) (name : str) : res Z := rbind (getattr o name) as_number.
(** The last part of compare_audio_grains and its like: formats the same or a failing, excluded child. *)
Definition format_then_data psnr (allow_psnr : bool) (code_for : Z -> code) (name : str) (opts : list copt) (a b : gobj) : res (list copt * cres) :=
  rbind (format_of a name) (fun f => rbind (format_of b name) (fun g =>
  if f =? g then rbind (data_child psnr allow_psnr (code_for f) opts a b) (fun c => Ok (opts, c))
  else let opts := opts ++ [Exclude $"data"] in Ok (opts, failing data_path opts (Some $"data") None))).
(** [children['length']._options.append(Exclude.length)], 632-633. *)
Definition exclude_length (c : cres) : cres :=
  let '(CR i a k o e l) := c in if zlist_eqb i (path $"length") then CR i a k (o ++ [Exclude $"length"]) e l else c.
Definition has_include (opts : list copt) : bool := existsb (fun o => match o with OInclude p => zlist_eqb p (path $"creation_timestamp") | _ => false end) opts.
(** The children and the options afterwards. *)
Definition grain_children psnr (opts : list copt) (a b : gobj) : res (list copt * list cres) :=
  let opts := if has_include opts then opts else opts ++ [Exclude $"creation_timestamp"] in
  rbind (equalities getattr opts [$"grain_type"; $"src_id"; $"flow_id"; $"rate"; $"duration"; $"length"] a b) (fun basic =>
  rbind (instants opts [$"origin_timestamp"; $"sync_timestamp"; $"creation_timestamp"] a b) (fun times =>
  rbind (labels a) (fun la => rbind (labels b) (fun lb =>
  rbind (ordered (mapping opts) (path $"timelabels") opts (Some $"timelabels") la lb) (fun tl =>
  let common := basic ++ times ++ [tl] in
  rbind (getattr a $"grain_type") (fun ta => rbind (getattr b $"grain_type") (fun tb =>
  if negb (py_eq ta tb) then
    let opts := opts ++ [Exclude $"data"] in Ok (opts, common ++ [failing data_path opts (Some $"data") None])
  else if type_is ta $"event" then
    rbind (equalities getattr opts [$"event_type"; $"topic"] a b) (fun l =>
    rbind (rbind (event_entries a) (map_res as_dict)) (fun ea => rbind (rbind (event_entries b) (map_res as_dict)) (fun eb =>
    rbind (ordered (mapping opts) (path $"event_data") opts (Some $"event_data") ea eb) (fun e =>
    let skip := existsb (fun c => excluded c) (l ++ [e]) in
    Ok (opts, (if skip then map exclude_length common else common) ++ l ++ [e])))))
  else if type_is ta $"audio" then
    rbind (equalities getattr opts [$"cog_audio_format"; $"samples"; $"channels"; $"sample_rate"] a b) (fun l =>
    rbind (format_then_data psnr true code_for_audio $"cog_audio_format" opts a b) (fun '(opts, d) => Ok (opts, common ++ l ++ [d])))
  else if type_is ta $"coded_audio" then
    rbind (equalities getattr opts [$"cog_audio_format"; $"samples"; $"channels"; $"sample_rate"; $"priming"; $"remainder"] a b) (fun l =>
    rbind (format_then_data psnr false (fun _ => CB) $"cog_audio_format" opts a b) (fun '(opts, d) => Ok (opts, common ++ l ++ [d])))
  else if type_is ta $"video" then
    rbind (equalities getattr opts [$"cog_frame_format"; $"width"; $"height"; $"cog_frame_layout"] a b) (fun l =>
    rbind (format_then_data psnr true code_for_video $"cog_frame_format" opts a b) (fun '(opts, d) => Ok (opts, common ++ l ++ [d])))
  else if type_is ta $"coded_video" then
    rbind (equalities getattr_or_none opts
             [$"cog_frame_format"; $"coded_width"; $"coded_height"; $"origin_width"; $"origin_height"; $"is_key_frame"; $"temporal_offset"; $"cog_frame_layout"] a b) (fun l =>
    rbind (rbind (offsets a) (map_res as_number)) (fun oa => rbind (rbind (offsets b) (map_res as_number)) (fun ob =>
    rbind (ordered (fun i k x y => Ok (difference i opts None (Some k) x y)) (path $"unit_offsets") opts (Some $"unit_offsets") oa ob) (fun u =>
    rbind (format_then_data psnr false (fun _ => CB) $"cog_frame_format" opts a b) (fun '(opts, d) => Ok (opts, common ++ l ++ [u] ++ [d]))))))
  else
    rbind (data_child psnr false CB opts a b) (fun d => Ok (opts, common ++ [d]))))))))).
Definition compare_with_key psnr (key : option ckey) (opts : list copt) (a b : gobj) : res cres :=
  rbind (grain_children psnr opts a b) (fun '(opts, l) => Ok (CR $"{}" None key opts (all_agree l) l)).
(** __init__.py 31-43. *)
Definition compare_grain psnr (opts : list copt) (a b : gobj) : res cres := compare_with_key psnr None opts a b.

(** ** GrainIteratorComparisonResult, 516-580, and compare_grains_pairwise, __init__.py 46-60. *)
(** The loop: the number of pairs compared, the children without and with return_last_only, and whether all matched. *)
Fixpoint pairwise_loop psnr (opts : list copt) (n : Z) (last : option cres) (a b : list gobj) : res (Z * list cres * list cres * option cres * bool) :=
  match a, b with
  | [], [] => Ok (n, [], [], last, true)
  | [], _ :: _ | _ :: _, [] => let c := failing $"{}" opts None (Some (KIndex n)) in Ok (n, [c], [c], last, false)
  | x :: a, y :: b =>
      rbind (compare_with_key psnr (Some (KIndex n)) opts x y) (fun c =>
      if r_equal c then
        rbind (pairwise_loop psnr opts (n + 1) (Some c) a b) (fun '(k, l, l', last, ok) => Ok (k, c :: l, l', last, ok))
      else Ok (n + 1, [c], [], Some c, false))
  end.
Definition compare_grains_pairwise psnr (return_last_only : bool) (opts : list copt) (a b : list gobj) : res (cres * Z) :=
  rbind (pairwise_loop psnr opts 0 None a b) (fun '(n, l, l', last, ok) =>
  if return_last_only then
    match last with
    | None => Err EUnbound
    | Some c => Ok (CR $"{}" None None opts ok (l' ++ [c]), n)
    end
  else Ok (CR $"{}" None None opts ok l, n)).
