(** OpenAsyncBytesIOWrapper: /repo/mediagrains/utils/asyncbinaryio.py lines 260-304, over io.BytesIO of the Python standard library
    (Modules/_io/bytesio.c), of which the contents and the position are modelled. OpenAsyncFileWrapper, 206-250, has the same
    bodies, run in another thread. *)
From Verif Require Import Base PySlice AsyncBytes.

Record bio := mkBio { bio_data : bytes; bio_pos : Z }.
Definition bio_new (b : bytes) : bio := mkBio b 0.

(** BytesIO.read: a negative size or more than there is gives what there is. *)
Definition bio_read (f : bio) (size : Z) : bio * bytes :=
  let n := zlen (bio_data f) - bio_pos f in
  let size := if (size <? 0) || (n <? size) then Z.max n 0 else size in
  (mkBio (bio_data f) (bio_pos f + size), py_slice (bio_data f) (bio_pos f) (bio_pos f + size)).
(** BytesIO.readinto on bytearray(size). *)
Definition bio_readinto (f : bio) (size : Z) : bio * (Z * bytes) :=
  let n := zlen (bio_data f) - bio_pos f in
  let len := if n <? size then Z.max n 0 else size in
  (mkBio (bio_data f) (bio_pos f + len), (len, py_assign (zeros (Z.to_nat size)) 0 len (py_slice (bio_data f) (bio_pos f) (bio_pos f + len)))).
(** BytesIO.write: nothing for no bytes; a gap is filled with zeros. *)
Definition bio_write (f : bio) (d : bytes) : bio * Z :=
  if zlen d =? 0 then (f, 0)
  else let endpos := bio_pos f + zlen d in
       let padded := if zlen (bio_data f) <? bio_pos f then bio_data f ++ zeros (Z.to_nat (bio_pos f - zlen (bio_data f))) else bio_data f in
       (mkBio (py_assign padded (bio_pos f) endpos d) endpos, zlen d).
(** BytesIO.truncate: only ever shorter; the position stays. *)
Definition bio_truncate (f : bio) (size : option Z) : bio * res Z :=
  let s := match size with Some s => s | None => bio_pos f end in
  if s <? 0 then (f, Err EValue)
  else (mkBio (if s <? zlen (bio_data f) then py_slice (bio_data f) 0 s else bio_data f) (bio_pos f), Ok s).
(** BytesIO.seek: a negative position is refused from the start and becomes 0 otherwise. *)
Definition bio_seek (f : bio) (offset : Z) (w : whence) : bio * res Z :=
  match w with
  | SeekSet => if offset <? 0 then (f, Err EValue) else (mkBio (bio_data f) offset, Ok offset)
  | SeekCur => let p := Z.max 0 (bio_pos f + offset) in (mkBio (bio_data f) p, Ok p)
  | SeekEnd => let p := Z.max 0 (zlen (bio_data f) + offset) in (mkBio (bio_data f) p, Ok p)
  end.

Definition onum (r : res Z) : res aout := match r with Ok n => Ok (ONum n) | Err e => Err e end.
(** The wrapper, 270-292; [readall] is not a method of BytesIO; [getvalue] is of the wrapped file (getsync, 303-304). *)
Definition wb_step (f : bio) (o : aop) : bio * res aout :=
  match o with
  | ARead size => let (f1, d) := bio_read f size in (f1, Ok (OBytes d))
  | AReadInto size => if size <? 0 then (f, Err EValue) else let '(f1, (n, b)) := bio_readinto f size in (f1, Ok (OInto n b))
  | AReadAll => (f, Err EAttr)
  | AWrite d => let (f1, n) := bio_write f d in (f1, Ok (ONum n))
  | ATruncate size => let (f1, r) := bio_truncate f size in (f1, onum r)
  | ATell => (f, Ok (ONum (bio_pos f)))
  | ASeek offset w => let (f1, r) := bio_seek f offset w in (f1, onum r)
  | AGetValue => (f, Ok (OBytes (bio_data f)))
  end.
Fixpoint wb_run (f : bio) (ops : list aop) : bio * list (res aout) :=
  match ops with
  | [] => (f, [])
  | o :: t => let (f1, r) := wb_step f o in let (f2, rs) := wb_run f1 t in (f2, r :: rs)
  end.
