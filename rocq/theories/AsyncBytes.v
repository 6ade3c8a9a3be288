(** OpenAsyncBytesIO: /repo/mediagrains/utils/asyncbinaryio.py lines 112-187, and the [read] it inherits, 35-46.

    [wrap_in_executor] (105-109) runs a function in another thread and awaits it; it is modelled as calling it, that is,
    one operation is finished before the next begins. *)
From Verif Require Import Base PySlice.

Record abuf := mkAb { ab_buf : bytes; ab_pos : Z; ab_len : Z }.

(** __init__, 113-116. *)
Definition ab_new (b : bytes) : abuf := mkAb b 0 (zlen b).

Inductive whence := SeekSet | SeekCur | SeekEnd.

Inductive aop :=
| ARead (size : Z)
| AReadInto (size : Z)
| AReadAll
| AWrite (d : bytes)
| ATruncate (size : option Z)
| ATell
| ASeek (offset : Z) (w : whence)
| AGetValue.

(** What a call returns. [readinto] returns the count and leaves the bytes in its argument. *)
Inductive aout :=
| OBytes (d : bytes)
| OInto (n : Z) (b : bytes)
| ONum (n : Z)
| ONone.

(** readinto, 123-130, on bytearray(size). *)
Definition ab_readinto (a : abuf) (size : Z) : abuf * (Z * bytes) :=
  let b := zeros (Z.to_nat size) in
  let length := Z.min (ab_len a - ab_pos a) size in
  if 0 <? length then
    (mkAb (ab_buf a) (ab_pos a + length) (ab_len a),
     (length, py_assign b 0 length (py_slice (ab_buf a) (ab_pos a) (ab_pos a + length))))
  else (a, (0, b)).

(** readall, 133-137. *)
Definition ab_readall (a : abuf) : bytes :=
  if (0 <=? ab_pos a) && (ab_pos a <? ab_len a) then py_slice (ab_buf a) (ab_pos a) (ab_len a) else [].

(** OpenAsyncBinaryIO.read, 35-46: all or nothing. bytearray(size) raises ValueError for a negative size. *)
Definition ab_read (a : abuf) (size : Z) : abuf * res aout :=
  if size =? -1 then (a, Ok (OBytes (ab_readall a)))
  else if size <? 0 then (a, Err EValue)
  else let '(a1, (s, b)) := ab_readinto a size in
       if s <? size then (a1, Err EEof) else (a1, Ok (OBytes b)).

(** write, 140-153. *)
Definition ab_write (a : abuf) (d : bytes) : abuf * Z :=
  if ab_pos a <? 0 then (a, 0)
  else
    let buf :=
      if zlen (ab_buf a) <? ab_pos a + zlen d then
        py_assign (zeros (Z.to_nat (Z.max (ab_pos a + zlen d) (2 * zlen (ab_buf a))))) 0 (ab_len a)
          (py_slice (ab_buf a) 0 (ab_len a))
      else ab_buf a in
    let pos := ab_pos a + zlen d in
    (mkAb (py_assign buf (ab_pos a) pos d) pos (Z.max pos (ab_len a)), zlen d).

(** truncate, 155-161. *)
Definition ab_truncate (a : abuf) (size : option Z) : abuf :=
  mkAb (ab_buf a) (ab_pos a) (match size with Some s => s | None => Z.max (ab_pos a) 0 end).

(** seek, 166-172. *)
Definition ab_seek (a : abuf) (offset : Z) (w : whence) : abuf :=
  mkAb (ab_buf a) (match w with SeekSet => offset | SeekCur => ab_pos a + offset | SeekEnd => ab_len a + offset end) (ab_len a).

(** getvalue, 186-187. *)
Definition ab_value (a : abuf) : bytes := py_slice (ab_buf a) 0 (ab_len a).

Definition ab_step (a : abuf) (o : aop) : abuf * res aout :=
  match o with
  | ARead size => ab_read a size
  | AReadInto size => if size <? 0 then (a, Err EValue) else let '(a1, (n, b)) := ab_readinto a size in (a1, Ok (OInto n b))
  | AReadAll => (a, Ok (OBytes (ab_readall a)))
  | AWrite d => let (a1, n) := ab_write a d in (a1, Ok (ONum n))
  | ATruncate size => let a1 := ab_truncate a size in (a1, Ok (ONum (ab_len a1)))
  | ATell => (a, Ok (ONum (ab_pos a)))
  | ASeek offset w => (ab_seek a offset w, Ok ONone)
  | AGetValue => (a, Ok (OBytes (ab_value a)))
  end.

Fixpoint ab_run (a : abuf) (ops : list aop) : abuf * list (res aout) :=
  match ops with
  | [] => (a, [])
  | o :: t => let (a1, r) := ab_step a o in let (a2, rs) := ab_run a1 t in (a2, r :: rs)
  end.
