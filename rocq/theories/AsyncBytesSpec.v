(** An ideal file: its contents and a position. *)
From Verif Require Import Base AsyncBytes.

Record ideal := mkId { id_data : bytes; id_pos : Z }.

Definition rest (f : ideal) : bytes := zskip (id_pos f) (id_data f).
Definition id_move (f : ideal) (n : Z) : ideal := mkId (id_data f) n.

(** A write overwrites what is there; a gap after the end is filled with zeros. *)
Definition overwrite (data : bytes) (pos : Z) (d : bytes) : bytes :=
  zfirst pos data ++ zeros (Z.to_nat (pos - zlen data)) ++ d ++ zskip (pos + zlen d) data.

(** The behaviour of the ideal file. A read of more than there is consumes what there is and fails; readinto leaves
    the rest of the array alone. *)
Definition id_step (f : ideal) (o : aop) : ideal * res aout :=
  let n size := Z.min size (zlen (rest f)) in
  match o with
  | ARead size =>
      if size =? -1 then (id_move f (id_pos f + zlen (rest f)), Ok (OBytes (rest f)))
      else (id_move f (id_pos f + n size), if zlen (rest f) <? size then Err EEof else Ok (OBytes (zfirst size (rest f))))
  | AReadInto size =>
      (id_move f (id_pos f + n size),
       Ok (OInto (n size) (zfirst size (rest f) ++ zeros (Z.to_nat (size - n size)))))
  | AReadAll => (id_move f (id_pos f + zlen (rest f)), Ok (OBytes (rest f)))
  | AWrite d => (mkId (overwrite (id_data f) (id_pos f) d) (id_pos f + zlen d), Ok (ONum (zlen d)))
  | ATruncate size =>
      let s := match size with Some s => s | None => id_pos f end in
      (mkId (zfirst s (id_data f)) (id_pos f), Ok (ONum s))
  | ATell => (f, Ok (ONum (id_pos f)))
  | ASeek offset w =>
      (id_move f (match w with SeekSet => offset | SeekCur => id_pos f + offset | SeekEnd => zlen (id_data f) + offset end),
       Ok ONone)
  | AGetValue => (f, Ok (OBytes (id_data f)))
  end.

Fixpoint id_run (f : ideal) (ops : list aop) : ideal * list (res aout) :=
  match ops with
  | [] => (f, [])
  | o :: t => let (f1, r) := id_step f o in let (f2, rs) := id_run f1 t in (f2, r :: rs)
  end.

(** The histories considered: no negative sizes or positions, no truncation beyond the end, once the file has been
    made shorter ([shrunk]) no write that starts beyond the end, and no reading of everything when there is something to
    read (that is treated separately). *)
Definition fair (f : ideal) (shrunk : bool) (o : aop) : Prop :=
  match o with
  | ARead size => 0 <= size \/ (size = -1 /\ rest f = [])
  | AReadAll => rest f = []
  | AReadInto size => 0 <= size
  | AWrite d => shrunk = true -> id_pos f <= zlen (id_data f)
  | ATruncate (Some s) => 0 <= s <= zlen (id_data f)
  | ATruncate None => id_pos f <= zlen (id_data f)
  | ASeek _ _ => 0 <= id_pos (fst (id_step f o))
  | _ => True
  end.
Definition shrinks (f : ideal) (o : aop) : bool :=
  match o with ATruncate _ => zlen (id_data (fst (id_step f o))) <? zlen (id_data f) | _ => false end.

Inductive Fair : ideal -> bool -> list aop -> Prop :=
| Fr_nil f sh : Fair f sh []
| Fr_cons f sh o ops : fair f sh o -> Fair (fst (id_step f o)) (sh || shrinks f o) ops -> Fair f sh (o :: ops).
