(** OpenAsyncStreamWrapper: /repo/mediagrains/utils/asyncbinaryio.py lines 314-427.

    The reader is what asyncio.StreamReader will deliver before end of file; waiting for it is not modelled (a
    readexactly that meets the end of file returns what there was, line 336-339). The writer is the list of bytes handed to
    StreamWriter.write. *)
From Verif Require Import Base AsyncBytes.

Record astream := mkAs { as_in : option bytes; as_out : option bytes; as_pos : Z; as_next : Z }.

(** __init__ and __open__, 315-323. *)
Definition as_new (reader writer : option bytes) : astream := mkAs reader writer 0 0.

Inductive sop :=
| SRead (size : Z)
| SReadInto (size : Z)
| SReadAll
| SWrite (d : bytes)
| STruncate (size : option Z)
| STell
| SSeek (offset : Z) (w : whence).

(** _read, 329-339. *)
Definition as_take (a : astream) (s : Z) : astream * bytes :=
  match as_in a with
  | None => (a, [])
  | Some r =>
      if s <? 0 then (mkAs (Some []) (as_out a) (as_pos a) (as_next a), r)
      else (mkAs (Some (zskip s r)) (as_out a) (as_pos a) (as_next a), zfirst s r)
  end.

Definition as_emit (a : astream) (d : bytes) : astream :=
  mkAs (as_in a) (match as_out a with Some o => Some (o ++ d) | None => None end) (as_pos a) (as_next a).

Definition as_at (a : astream) (pos : Z) : astream := mkAs (as_in a) (as_out a) pos (as_next a).

(** _align_pos, 341-347. *)
Definition as_align (a : astream) : astream :=
  if as_pos a <? as_next a then
    let (a1, _) := as_take a (as_next a - as_pos a) in
    as_at (as_emit a1 (zeros (Z.to_nat (as_next a - as_pos a)))) (as_next a)
  else a.

(** read, 349-355. *)
Definition as_read (a : astream) (s : Z) : astream * res bytes :=
  match as_in a with
  | None => (a, Err EUnsupported)
  | Some _ => let (a1, d) := as_take (as_align a) s in (as_at a1 (as_pos a1 + zlen d), Ok d)
  end.

(** seek, 393-409. *)
Definition as_seek (a : astream) (offset : Z) (w : whence) : astream * res aout :=
  let base := if as_pos a <? as_next a then as_next a else as_pos a in
  let go next := if next <? as_pos a then (a, Err EUnsupported)
                 else (mkAs (as_in a) (as_out a) (as_pos a) next, Ok (ONum next)) in
  match w with
  | SeekSet => go offset
  | SeekCur => go (base + offset)
  | SeekEnd => (a, Err EUnsupported)
  end.

Definition as_step (a : astream) (o : sop) : astream * res aout :=
  match o with
  | SRead s => let (a1, r) := as_read a s in (a1, rbind r (fun d => Ok (OBytes d)))
  (* readinto, 357-367, on bytearray(size) *)
  | SReadInto s =>
      if s <? 0 then (a, Err EValue)
      else match as_in a with
           | None => (a, Err EUnsupported)
           | Some _ => let (a1, d) := as_take (as_align a) s in
                       (as_at a1 (as_pos a1 + zlen d), Ok (OInto (zlen d) (d ++ zskip (zlen d) (zeros (Z.to_nat s)))))
           end
  (* readall, 369-372 *)
  | SReadAll => let (a1, r) := as_read a (-1) in
                match r with
                | Ok d => (as_at a1 (as_pos a1 + zlen d), Ok (OBytes d))
                | Err e => (a1, Err e)
                end
  (* write, 374-381 *)
  | SWrite d => match as_out a with
                | None => (a, Err EUnsupported)
                | Some _ => let a1 := as_emit (as_align a) d in (as_at a1 (as_pos a1 + zlen d), Ok (ONum (zlen d)))
                end
  (* truncate, 383-384 *)
  | STruncate _ => (a, Err EUnsupported)
  (* tell, 386-391 *)
  | STell => (a, Ok (ONum (if as_pos a <? as_next a then as_next a else as_pos a)))
  | SSeek offset w => as_seek a offset w
  end.

Fixpoint as_run (a : astream) (ops : list sop) : astream * list (res aout) :=
  match ops with
  | [] => (a, [])
  | o :: t => let (a1, r) := as_step a o in let (a2, rs) := as_run a1 t in (a2, r :: rs)
  end.
