(** IOBytes: /repo/mediagrains/utils/iobytes.py lines 28-73 (LazyLoader) and 117-166 (IOBytes).

    The stream belongs to somebody else as well, who may move it and change its contents between calls; every access
    that IOBytes itself makes is recorded in [io_log]. *)
From Verif Require Import Base.

Inductive access := ATellAt | ASeekTo (n : Z) | AReadN (n : Z).

Record iobytes := mkIo {
  io_start : Z; io_length : Z; io_object : option bytes;
  io_data : bytes; io_pos : Z; io_log : list access }.

(** __init__, 132-150. *)
Definition io_new (start length : Z) (data : bytes) (pos : Z) : iobytes := mkIo start length None data pos [].

Inductive ioop :=
| IoLen            (* len(x) *)
| IoGet            (* any other attribute or method, or bytes(x): the bytes it is then applied to *)
| IoMove (pos : Z) (* the other user of the stream moves it *)
| IoChange (data : bytes). (* the other user of the stream changes its contents *)

Inductive ioout := IoNum (n : Z) | IoBytesOut (d : bytes) | IoUnit.

Definition io_put (x : iobytes) (o : option bytes) (pos : Z) (log : list access) : iobytes :=
  mkIo (io_start x) (io_length x) o (io_data x) pos (io_log x ++ log).

(** __loadbytes, 138-148; reading is istream.read, where a negative count means everything; seeking to a negative
    position raises ValueError. *)
Definition io_load (x : iobytes) : iobytes * res bytes :=
  let loc := io_pos x in
  if io_start x <? 0 then (io_put x None loc [ATellAt; ASeekTo (io_start x); ASeekTo loc], Err EValue)
  else
    let left := zskip (io_start x) (io_data x) in
    let d := if io_length x <? 0 then left else zfirst (io_length x) left in
    (io_put x (Some d) loc [ATellAt; ASeekTo (io_start x); AReadN (io_length x); ASeekTo loc], Ok d).

(** __getattribute__ 51-57 and __bytes__ 152-155. *)
Definition io_get (x : iobytes) : iobytes * res bytes :=
  match io_object x with Some d => (x, Ok d) | None => io_load x end.

(** __len__, 157-161. *)
Definition io_len (x : iobytes) : Z := match io_object x with Some d => zlen d | None => io_length x end.

Definition io_step (x : iobytes) (o : ioop) : iobytes * res ioout :=
  match o with
  | IoLen => (x, Ok (IoNum (io_len x)))
  | IoGet => let (x1, r) := io_get x in (x1, rbind r (fun d => Ok (IoBytesOut d)))
  | IoMove pos => (mkIo (io_start x) (io_length x) (io_object x) (io_data x) pos (io_log x), Ok IoUnit)
  | IoChange data => (mkIo (io_start x) (io_length x) (io_object x) data (io_pos x) (io_log x), Ok IoUnit)
  end.

Fixpoint io_run (x : iobytes) (ops : list ioop) : iobytes * list (res ioout) :=
  match ops with
  | [] => (x, [])
  | o :: t => let (x1, r) := io_step x o in let (x2, rs) := io_run x1 t in (x2, r :: rs)
  end.
