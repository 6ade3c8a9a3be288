(** The operations of Python lists, with integers and slices as indices, used by the list-like classes of
    /repo/mediagrains/grains. *)
From Verif Require Import Base PySlice.

(** An index: negative ones count from the end. *)
Definition py_idx (n i : Z) : option Z := let j := if i <? 0 then i + n else i in if (0 <=? j) && (j <? n) then Some j else None.
(** [l[i]], [l[i] = v], [del l[i]], [l.insert(i, v)]. *)
Definition lget {A} (l : list A) (i : Z) : res A :=
  match py_idx (zlen l) i with Some j => match zskip j l with x :: _ => Ok x | [] => Err EIndex end | None => Err EIndex end.
Definition lput {A} (l : list A) (i : Z) (v : A) : res (list A) :=
  match py_idx (zlen l) i with Some j => Ok (zfirst j l ++ v :: zskip (j + 1) l) | None => Err EIndex end.
Definition lcut {A} (l : list A) (i : Z) : res (list A) :=
  match py_idx (zlen l) i with Some j => Ok (zfirst j l ++ zskip (j + 1) l) | None => Err EIndex end.
Definition linsert {A} (l : list A) (i : Z) (v : A) : list A := let a := py_bound (zlen l) i in zfirst a l ++ v :: zskip a l.

(** [slice(start, stop, step).indices(n)]. *)
Record pslice := mkSlice { sl_start : option Z; sl_stop : option Z; sl_step : option Z }.
Definition clip (n low high i : Z) : Z := if i <? 0 then Z.max (i + n) low else Z.min i high.
Definition indices (n : Z) (s : pslice) : res (Z * Z * Z) :=
  let step := match sl_step s with Some k => k | None => 1 end in
  if step =? 0 then Err EValue
  else
    let '(low, high) := if step <? 0 then (-1, n - 1) else (0, n) in
    let start := match sl_start s with Some i => clip n low high i | None => if step <? 0 then high else low end in
    let stop := match sl_stop s with Some i => clip n low high i | None => if step <? 0 then low else high end in
    Ok (start, stop, step).
(** [range(start, stop, step)]. *)
Definition range_len (start stop step : Z) : Z :=
  if step <? 0 then (if stop <? start then (start - stop - 1) / (- step) + 1 else 0)
  else if start <? stop then (stop - start - 1) / step + 1 else 0.
Definition zrange (start stop step : Z) : list Z := map (fun k => start + Z.of_nat k * step) (seq 0 (Z.to_nat (range_len start stop step))).
(** [range(n)[s]]. *)
Definition slice_positions (n : Z) (s : pslice) : res (list Z) := rbind (indices n s) (fun '(a, b, k) => Ok (zrange a b k)).
(** [l[s]] and [del l[s]]. *)
Definition lslice {A} (l : list A) (s : pslice) : res (list A) :=
  rbind (slice_positions (zlen l) s) (fun p => Ok (flat_map (fun j => match zskip j l with x :: _ => [x] | [] => [] end) p)).
Fixpoint drop_at {A} (j : Z) (p : list Z) (l : list A) : list A :=
  match l with [] => [] | x :: l => if existsb (Z.eqb j) p then drop_at (j + 1) p l else x :: drop_at (j + 1) p l end.
Definition lslice_cut {A} (l : list A) (s : pslice) : res (list A) :=
  rbind (slice_positions (zlen l) s) (fun p => Ok (drop_at 0 p l)).
