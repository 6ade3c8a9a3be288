(** What a deferred byte string should do. *)
From Verif Require Import Base IoBytes.

(** The stream as its other user leaves it. *)
Fixpoint others (data : bytes) (pos : Z) (ops : list ioop) : bytes * Z :=
  match ops with
  | [] => (data, pos)
  | IoMove p :: t => others data p t
  | IoChange d :: t => others d pos t
  | _ :: t => others data pos t
  end.

(** [length] bytes from [start], or what there is of them. *)
Definition region (data : bytes) (start length : Z) : bytes := zfirst length (zskip start data).

(** What the calls return: [got] is the value of the first use, once there has been one. *)
Fixpoint io_expect (start length : Z) (data : bytes) (got : option bytes) (ops : list ioop) : list (res ioout) :=
  match ops with
  | [] => []
  | IoLen :: t => Ok (IoNum (match got with Some d => zlen d | None => length end)) :: io_expect start length data got t
  | IoGet :: t => let d := match got with Some d => d | None => region data start length end in
                  Ok (IoBytesOut d) :: io_expect start length data (Some d) t
  | IoMove _ :: t => Ok IoUnit :: io_expect start length data got t
  | IoChange d :: t => Ok IoUnit :: io_expect start length d got t
  end.

(** The accesses made: one round trip for the first use, at the position [pos] the stream had then. *)
Fixpoint io_accesses (start length pos : Z) (ops : list ioop) : list access :=
  match ops with
  | [] => []
  | IoGet :: _ => [ATellAt; ASeekTo start; AReadN length; ASeekTo pos]
  | IoMove p :: t => io_accesses start length p t
  | _ :: t => io_accesses start length pos t
  end.
