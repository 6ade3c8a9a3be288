(** What a forward-only stream should do, in terms of the complete contents held in memory. *)
From Verif Require Import Base AsyncBytes AsyncBytesSpec AsyncStream.

(** A position, and the mark before which nothing can be had any more. *)
Record spot := mkSpot { sp_pos : Z; sp_mark : Z }.

Definition goes (s : spot) (offset : Z) (w : whence) : option Z :=
  match w with
  | SeekSet => if sp_mark s <=? offset then Some offset else None
  | SeekCur => if sp_mark s <=? sp_pos s + offset then Some (sp_pos s + offset) else None
  | SeekEnd => None
  end.

Definition to_spot (s : spot) (offset : Z) (w : whence) : spot * res aout :=
  match goes s offset w with
  | Some q => (mkSpot q (sp_mark s), Ok (ONum q))
  | None => (s, Err EUnsupported)
  end.

(** Reading from contents [all]: the bytes at the position, as many as there are. *)
Definition in_step (all : bytes) (s : spot) (o : sop) : spot * res aout :=
  let left := zskip (sp_pos s) all in
  let past d := mkSpot (sp_pos s + zlen d) (sp_pos s + zlen d) in
  match o with
  | SRead n => let d := if n <? 0 then left else zfirst n left in (past d, Ok (OBytes d))
  | SReadInto n =>
      if n <? 0 then (s, Err EValue)
      else let d := zfirst n left in (past d, Ok (OInto (zlen d) (d ++ zeros (Z.to_nat (n - zlen d)))))
  | SReadAll => (past left, Ok (OBytes left))
  | SWrite _ | STruncate _ => (s, Err EUnsupported)
  | STell => (s, Ok (ONum (sp_pos s)))
  | SSeek offset w => to_spot s offset w
  end.

Fixpoint in_run (all : bytes) (s : spot) (ops : list sop) : spot * list (res aout) :=
  match ops with
  | [] => (s, [])
  | o :: t => let (s1, r) := in_step all s o in let (s2, rs) := in_run all s1 t in (s2, r :: rs)
  end.

(** Writing: the contents so far are an ideal file, of which everything up to its end is already out. *)
Definition out_step (c : bytes) (pos : Z) (o : sop) : bytes * Z * res aout :=
  match o with
  | SWrite d => (overwrite c pos d, pos + zlen d, Ok (ONum (zlen d)))
  | STell => (c, pos, Ok (ONum pos))
  | SSeek offset w => let (s1, r) := to_spot (mkSpot pos (zlen c)) offset w in (c, sp_pos s1, r)
  | SReadInto n => (c, pos, Err (if n <? 0 then EValue else EUnsupported))
  | SRead _ | SReadAll | STruncate _ => (c, pos, Err EUnsupported)
  end.

Fixpoint out_run (c : bytes) (pos : Z) (ops : list sop) : bytes * Z * list (res aout) :=
  match ops with
  | [] => (c, pos, [])
  | o :: t => let '(c1, p1, r) := out_step c pos o in let '(c2, p2, rs) := out_run c1 p1 t in (c2, p2, r :: rs)
  end.

Definition not_readall (o : sop) : Prop := o <> SReadAll.
