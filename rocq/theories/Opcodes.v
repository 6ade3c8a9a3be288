(** difflib.SequenceMatcher.get_matching_blocks and get_opcodes of the Python 3.11 standard library, and what
    DataEqualityComparisonResult says about two payloads, /repo/mediagrains/comparison/_internal.py 302-383. *)
From Verif Require Import Base Difflib.

(** ** get_matching_blocks: in the order in which the queue gives them. *)
Fixpoint blocks {A} (eqb : A -> A -> bool) (a b : list A) (fuel : nat) (alo ahi blo bhi : nat) : list (nat * nat * nat) :=
  match fuel with
  | O => []
  | S fuel =>
      let '(i, j, k) := find_longest_match eqb a b alo ahi blo bhi in
      if (k =? 0)%nat then []
      else
        (i, j, k) :: (if (i + k <? ahi)%nat && (j + k <? bhi)%nat then blocks eqb a b fuel (i + k) ahi (j + k) bhi else [])
                  ++ (if (alo <? i)%nat && (blo <? j)%nat then blocks eqb a b fuel alo i blo j else [])
  end.
(** [matching_blocks.sort()]: the order of tuples. *)
Definition no_later (x y : nat * nat * nat) : bool :=
  let '(i, j, k) := x in let '(i', j', k') := y in
  (i <? i')%nat || ((i =? i')%nat && ((j <? j')%nat || ((j =? j')%nat && (k <=? k')%nat))).
Fixpoint put_in (x : nat * nat * nat) (l : list (nat * nat * nat)) : list (nat * nat * nat) :=
  match l with [] => [x] | y :: l => if no_later x y then x :: y :: l else y :: put_in x l end.
Definition sort (l : list (nat * nat * nat)) : list (nat * nat * nat) := fold_right put_in [] l.
(** Adjacent blocks are joined. *)
Definition block_of (i j k : nat) : list (nat * nat * nat) := if (k =? 0)%nat then [] else [(i, j, k)].
Fixpoint join (i1 j1 k1 : nat) (l : list (nat * nat * nat)) : list (nat * nat * nat) :=
  match l with
  | [] => block_of i1 j1 k1
  | (i2, j2, k2) :: l =>
      if (i1 + k1 =? i2)%nat && (j1 + k1 =? j2)%nat then join i1 j1 (k1 + k2) l
      else block_of i1 j1 k1 ++ join i2 j2 k2 l
  end.
Definition matching_blocks {A} (eqb : A -> A -> bool) (a b : list A) : list (nat * nat * nat) :=
  join 0 0 0 (sort (blocks eqb a b (S (length a)) 0 (length a) 0 (length b))) ++ [(length a, length b, 0%nat)].

(** ** get_opcodes. *)
Inductive tag := Replace | Delete | Insert | Equal.
Record op := Op { op_tag : tag; op_i1 : nat; op_i2 : nat; op_j1 : nat; op_j2 : nat }.
Definition is_equal (o : op) : bool := match op_tag o with Equal => true | _ => false end.
Definition change (i ai j bj : nat) : list op :=
  if (i <? ai)%nat && (j <? bj)%nat then [Op Replace i ai j bj]
  else if (i <? ai)%nat then [Op Delete i ai j bj]
  else if (j <? bj)%nat then [Op Insert i ai j bj] else [].
Fixpoint opcodes_from (i j : nat) (l : list (nat * nat * nat)) : list op :=
  match l with
  | [] => []
  | (ai, bj, size) :: l =>
      change i ai j bj ++ (if (size =? 0)%nat then [] else [Op Equal ai (ai + size) bj (bj + size)])
      ++ opcodes_from (ai + size) (bj + size) l
  end.
Definition opcodes {A} (eqb : A -> A -> bool) (a b : list A) : list op := opcodes_from 0 0 (matching_blocks eqb a b).

(** ** DataEqualityComparisonResult.compare, 302-354: the verdict and which of the texts is made of which values. [first] is true
    if it is a that has no payload, or that has more of it. *)
Inductive note A :=
| Neither | Unset (first : bool) (length : Z) | Unchecked | AllSame
| Differ (i : nat) (x y : A) | Extra (first : bool) (n : Z) (i : nat) (x : A).
Arguments Neither {A}. Arguments Unset {A}. Arguments Unchecked {A}. Arguments AllSame {A}. Arguments Differ {A}. Arguments Extra {A}.
Definition elem {A} (l : list A) (i : nat) : res A := match nth_error l i with Some x => Ok x | None => Err EIndex end.
(** 321-353. *)
Definition describe {A} (eqb : A -> A -> bool) (a b : list A) : res (note A) :=
  rbind (elem (filter (fun o => negb (is_equal o)) (opcodes eqb a b)) 0) (fun first_op =>
  let i := op_i1 first_op in
  if (i <? length a)%nat && (i <? length b)%nat then rbind (elem a i) (fun x => rbind (elem b i) (fun y => Ok (Differ i x y)))
  else if (i <? length a)%nat then rbind (elem a i) (fun x => Ok (Extra true (zlen a - zlen b) i x))
  else rbind (elem b i) (fun x => Ok (Extra false (zlen b - zlen a) i x))).
Definition data_compare {A} (eqb : A -> A -> bool) (skip : bool) (a b : option (list A)) : res (bool * note A) :=
  match a, b with
  | None, None => Ok (true, Neither)
  | None, Some b => Ok (false, Unset true (zlen b))
  | Some a, None => Ok (false, Unset false (zlen a))
  | Some a, Some b =>
      if skip then Ok (false, Unchecked)
      else if ratio_one eqb a b then Ok (true, AllSame)
      else rbind (describe eqb a b) (fun n => Ok (false, n))
  end.
(** [l[i:j]] for places in order. *)
Definition cut {A} (l : list A) (i j : nat) : list A := firstn (j - i) (skipn i l).
(** The lines below the message, 368-382: up to four operations with the values of a and of b -- both taken from i1 to i2 -- and
    whether "etc ..." follows. None: not different, so no lines. *)
Definition lines {A} (eqb : A -> A -> bool) (a b : list A) : res (option (list (op * list A * list A) * bool)) :=
  if ratio_one eqb a b then Ok None
  else
    let ops := map (fun o => (o, cut a (op_i1 o) (op_i2 o), cut b (op_i1 o) (op_i2 o))) (firstn 5 (opcodes eqb a b)) in
    rbind (elem ops 0) (fun _ => Ok (Some (firstn 4 ops, (4 <? length ops)%nat))).
