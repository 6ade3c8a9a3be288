(** Common definitions: byte strings, slices with [Z] indices, results with exceptions.

    Models used throughout; nothing here is specific to one file of /repo.
    A Python [bytes] value is a [list Z] whose elements are in 0..255 ([bytes_ok]);
    a Python [str] is the list of its code points. *)
From Coq Require Export List ZArith Lia Bool.
From Coq Require Import String Ascii.
Export ListNotations.
Global Open Scope Z_scope.

Notation bytes := (list Z).
Notation str := (list Z).

Definition byte_ok (b : Z) : Prop := 0 <= b < 256.
Definition bytes_ok (l : bytes) : Prop := Forall byte_ok l.

(** [len(l)] as a Python int. *)
Definition zlen {A} (l : list A) : Z := Z.of_nat (List.length l).

(** [l[n:]] for n >= 0 (no [nat] of data-dependent size is built). *)
Fixpoint zskip {A} (n : Z) (l : list A) : list A :=
  match l with
  | [] => []
  | x :: t => if n <=? 0 then l else zskip (n - 1) t
  end.

(** [l[:n]] for n >= 0. *)
Fixpoint zfirst {A} (n : Z) (l : list A) : list A :=
  match l with
  | [] => []
  | x :: t => if n <=? 0 then [] else x :: zfirst (n - 1) t
  end.

(** [bytes(n)]: n zero bytes. *)
Definition zeros (n : nat) : bytes := repeat 0 n.

Fixpoint zlist_eqb (a b : list Z) : bool :=
  match a, b with
  | [], [] => true
  | x :: a', y :: b' => (x =? y) && zlist_eqb a' b'
  | _, _ => false
  end.

(** ASCII literals. *)
Fixpoint s2z (s : string) : list Z :=
  match s with
  | EmptyString => []
  | String c t => Z.of_N (N_of_ascii c) :: s2z t
  end.

(** Python exceptions that can surface from the modelled code. *)
Inductive err :=
| EDecode        (* GSFDecodeError *)
| EBadType       (* GSFDecodeBadFileTypeError *)
| EBadVersion    (* GSFDecodeBadVersionError *)
| EEof           (* EOFError *)
| EValue         (* ValueError *)
| EUnicode       (* UnicodeDecodeError *)
| EEncode        (* GSFEncodeError *)
| EActive        (* GSFEncodeAddToActiveDump *)
| EKey           (* KeyError *)
| EIndex         (* IndexError *)
| ERuntime       (* RuntimeError *)
| EZeroDiv       (* ZeroDivisionError *)
| EStruct        (* struct.error *)
| EUnbound       (* UnboundLocalError *)
| EUnsupported   (* io.UnsupportedOperation *)
| ERead          (* h264 ReadError and similar parser errors *)
| EType          (* TypeError *)
| EAttr          (* AttributeError *)
| EFuel.         (* model artefact: recursion budget exhausted; shown unreachable *)

Inductive res (A : Type) :=
| Ok (a : A)
| Err (e : err).
Arguments Ok {A} a.
Arguments Err {A} e.

Definition rbind {A B} (m : res A) (k : A -> res B) : res B :=
  match m with Ok a => k a | Err e => Err e end.

Definition is_ok {A} (m : res A) : bool := match m with Ok _ => true | Err _ => false end.

(** Optional values compared with a decision function. *)
Definition opt_eqb {A} (eqb : A -> A -> bool) (a b : option A) : bool :=
  match a, b with
  | None, None => true
  | Some x, Some y => eqb x y
  | _, _ => false
  end.
