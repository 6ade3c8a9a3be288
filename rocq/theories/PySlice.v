(** Python slices of byte strings with arbitrary integer bounds (step 1), used by several modelled files. *)
From Verif Require Import Base.

(** A slice bound on a sequence of length [n]: negative bounds count from the end, then clamp. *)
Definition py_bound (n i : Z) : Z := Z.max 0 (Z.min n (if i <? 0 then i + n else i)).

(** [l[i:j]]. *)
Definition py_slice {A} (l : list A) (i j : Z) : list A :=
  let a := py_bound (zlen l) i in
  let b := py_bound (zlen l) j in
  zfirst (b - a) (zskip a l).

(** [l[i:j] = x] on a bytearray: the slice is replaced, the length may change. *)
Definition py_assign {A} (l : list A) (i j : Z) (x : list A) : list A :=
  let a := py_bound (zlen l) i in
  let b := Z.max a (py_bound (zlen l) j) in
  zfirst a l ++ x ++ zskip b l.
