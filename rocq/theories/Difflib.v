(** difflib.SequenceMatcher of the Python 3.11 standard library with [isjunk=None], as used by
    /repo/mediagrains/comparison/_internal.py 317-318 ([SequenceMatcher(None, a, b)] and [ratio()]).
    The elements are compared with [eqb], which need not be reflexive (NaN is not). *)
From Verif Require Import Base.

(** Element number i, if there is one. *)
Definition at_is {A} (f : A -> bool) (l : list A) (i : nat) : bool := match nth_error l i with Some x => f x | None => false end.
(** [a[i] == b[j]]. *)
Definition same {A} (eqb : A -> A -> bool) (a b : list A) (i j : nat) : bool :=
  match nth_error a i with Some x => at_is (eqb x) b j | None => false end.

(** [b2j.get(x, nothing)] after [__chain_b]: where x is in b, unless it is popular. *)
Definition b2j {A} (eqb : A -> A -> bool) (b : list A) (x : A) : list nat :=
  let idxs := filter (at_is (eqb x) b) (seq 0 (length b)) in
  if (200 <=? zlen b) && (zlen b / 100 + 1 <? zlen idxs) then [] else idxs.

(** [j2len.get(j - 1, 0)]; the key -1 is never there. *)
Fixpoint get (j : nat) (d : list (nat * nat)) : nat :=
  match d with [] => 0%nat | (k, v) :: d => if (k =? j)%nat then v else get j d end.
Definition before (j : nat) (d : list (nat * nat)) : nat := match j with O => 0%nat | S j => get j d end.

(** The inner loop of [find_longest_match]: [best] is besti, bestj, bestsize. *)
Fixpoint scan_row (js : list nat) (i blo bhi : nat) (old new : list (nat * nat)) (best : nat * nat * nat) : list (nat * nat) * (nat * nat * nat) :=
  match js with
  | [] => (new, best)
  | j :: js =>
      if (j <? blo)%nat then scan_row js i blo bhi old new best
      else if (bhi <=? j)%nat then (new, best)
      else
        let k := S (before j old) in
        let best := if (snd best <? k)%nat then ((i + 1 - k)%nat, (j + 1 - k)%nat, k) else best in
        scan_row js i blo bhi old ((j, k) :: new) best
  end.
(** The outer loop, over n elements of a from number i. *)
Fixpoint scan {A} (eqb : A -> A -> bool) (a b : list A) (blo bhi : nat) (n i : nat) (old : list (nat * nat)) (best : nat * nat * nat) : nat * nat * nat :=
  match n with
  | O => best
  | S n =>
      let js := match nth_error a i with Some x => b2j eqb b x | None => [] end in
      let '(new, best) := scan_row js i blo bhi old [] best in
      scan eqb a b blo bhi n (S i) new best
  end.

(** The loops that extend the best match; no element is junk. *)
Fixpoint grow_left {A} (eqb : A -> A -> bool) (a b : list A) (alo blo : nat) (i j size : nat) : nat * nat * nat :=
  match i, j with
  | S i', S j' =>
      if (alo <? i)%nat && (blo <? j)%nat && same eqb a b i' j' then grow_left eqb a b alo blo i' j' (S size) else (i, j, size)
  | _, _ => (i, j, size)
  end.
Fixpoint grow_right {A} (eqb : A -> A -> bool) (a b : list A) (ahi bhi : nat) (i j : nat) (fuel size : nat) : nat :=
  match fuel with
  | O => size
  | S fuel =>
      if (i + size <? ahi)%nat && (j + size <? bhi)%nat && same eqb a b (i + size) (j + size)
      then grow_right eqb a b ahi bhi i j fuel (S size) else size
  end.
Definition find_longest_match {A} (eqb : A -> A -> bool) (a b : list A) (alo ahi blo bhi : nat) : nat * nat * nat :=
  let '(i, j, k) := scan eqb a b blo bhi (ahi - alo) alo [] (alo, blo, 0%nat) in
  let '(i, j, k) := grow_left eqb a b alo blo i j k in
  (i, j, grow_right eqb a b ahi bhi i j (ahi - i) k).

(** [get_matching_blocks]: the sum of the sizes of the blocks. The queue is a recursion here; sorting the blocks and joining
    adjacent ones does not change the sum. *)
Fixpoint matches {A} (eqb : A -> A -> bool) (a b : list A) (fuel : nat) (alo ahi blo bhi : nat) : nat :=
  match fuel with
  | O => 0%nat
  | S fuel =>
      let '(i, j, k) := find_longest_match eqb a b alo ahi blo bhi in
      if (k =? 0)%nat then 0%nat
      else
        (k + (if (alo <? i) && (blo <? j) then matches eqb a b fuel alo i blo j else 0)
           + (if (i + k <? ahi) && (j + k <? bhi) then matches eqb a b fuel (i + k) ahi (j + k) bhi else 0))%nat
  end.
(** [ratio() == 1.0]: the quotient of floats is 1 only if the numbers are the same (below 2^53). *)
Definition ratio_one {A} (eqb : A -> A -> bool) (a b : list A) : bool :=
  (2 * matches eqb a b (S (length a)) 0 (length a) 0 (length b) =? length a + length b)%nat.
