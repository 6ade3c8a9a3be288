(** The operators of deferred byte strings: /repo/mediagrains/utils/iobytes.py 74-113 (LazyLoader) and 117-166 (IOBytes, a
    collections.abc.Sequence), the operators of bytes that they hand on to, and what that means for grains as pairs
    (/repo/mediagrains/grains/Grain.py 341-372). *)
From Verif Require Import Base PyValue PyList IoBytes.

(** The deferred byte strings there are; an operand is bytes, or one of them. Each has its own view of its stream: loading puts
    the position back, so it does not matter that streams are shared. *)
Definition store := list iobytes.
Inductive operand := Plain (b : bytes) | Defer (i : nat).

(** Using one: iobytes.py 51-57. *)
Definition put_at (h : store) (i : nat) (x : iobytes) : store := firstn i h ++ x :: skipn (S i) h.
Definition fetch (h : store) (i : nat) : store * res bytes :=
  match nth_error h i with
  | Some x => let (x', r) := io_get x in (put_at h i x', r)
  | None => (h, Err EKey)   (* there is no such object *)
  end.

(** The comparisons of bytes: by the first difference, or by length. *)
Inductive cmpop := CEq | CNe | CLt | CLe | CGt | CGe.
Fixpoint lex (x y : bytes) : comparison :=
  match x, y with
  | [], [] => Eq
  | [], _ => Lt
  | _, [] => Gt
  | a :: x, b :: y => match Z.compare a b with Eq => lex x y | c => c end
  end.
Definition bytes_op (o : cmpop) (x y : bytes) : bool :=
  match o, lex x y with
  | CEq, Eq | CNe, Lt | CNe, Gt | CLt, Lt | CLe, Lt | CLe, Eq | CGt, Gt | CGe, Gt | CGe, Eq => true
  | _, _ => false
  end.

(** [a.__op__(b)]: [None] is NotImplemented. Bytes know only bytes; a deferred byte string loads itself and hands on to its
    bytes (iobytes.py 74-91), which do not know deferred ones. *)
Definition method (h : store) (o : cmpop) (a b : operand) : store * res (option bool) :=
  let known (x : bytes) := match b with Plain y => Ok (Some (bytes_op o x y)) | Defer _ => Ok None end in
  match a with
  | Plain x => (h, known x)
  | Defer i => let (h1, r) := fetch h i in (h1, rbind r known)
  end.
Definition swapped (o : cmpop) : cmpop :=
  match o with CEq => CEq | CNe => CNe | CLt => CGt | CLe => CGe | CGt => CLt | CGe => CLe end.
Definition identical (a b : operand) : bool :=
  match a, b with Defer i, Defer j => Nat.eqb i j | _, _ => false end.

(** [a op b] as Python does it: one's own method, then the other's with the operator turned round; then identity for == and !=,
    and TypeError for the others. *)
Definition compare (h : store) (o : cmpop) (a b : operand) : store * res bool :=
  let (h1, r) := method h o a b in
  match r with
  | Err e => (h1, Err e)
  | Ok (Some v) => (h1, Ok v)
  | Ok None =>
      let (h2, r) := method h1 (swapped o) b a in
      match r with
      | Err e => (h2, Err e)
      | Ok (Some v) => (h2, Ok v)
      | Ok None => (h2, match o with CEq => Ok (identical a b) | CNe => Ok (negb (identical a b)) | _ => Err EType end)
      end
  end.

(** [x\[k\]]: iobytes.py 108-109. *)
Definition item_at (h : store) (i : nat) (k : Z) : store * res Z :=
  let (h1, r) := fetch h i in (h1, rbind r (fun d => lget d k)).
(** Sequence.__iter__: the items at 0, 1, ... until IndexError. *)
Fixpoint items_from (fuel : nat) (h : store) (i : nat) (k : Z) : store * res bytes :=
  match fuel with
  | O => (h, Err EFuel)
  | S fuel =>
      let (h1, r) := item_at h i k in
      match r with
      | Ok c => let (h2, l) := items_from fuel h1 i (k + 1) in (h2, rbind l (fun l => Ok (c :: l)))
      | Err EIndex => (h1, Ok [])
      | Err e => (h1, Err e)
      end
  end.
(** len(x), which does not load (iobytes.py 157-161), and bool(x), which is len(x) != 0: there is no __bool__. *)
Definition length_of (h : store) (i : nat) : Z := match nth_error h i with Some x => io_len x | None => 0 end.
Definition truth_of (h : store) (i : nat) : bool := negb (length_of h i =? 0).
(** Sequence.__reversed__: the items at len(x) - 1, ..., 0. *)
Fixpoint items_at (h : store) (i : nat) (ks : list Z) : store * res bytes :=
  match ks with
  | [] => (h, Ok [])
  | k :: ks =>
      let (h1, r) := item_at h i k in
      match r with
      | Ok c => let (h2, l) := items_at h1 i ks in (h2, rbind l (fun l => Ok (c :: l)))
      | Err e => (h1, Err e)
      end
  end.
Definition reversed_of (h : store) (i : nat) : store * res bytes :=
  items_at h i (rev (map Z.of_nat (seq 0 (Z.to_nat (length_of h i))))).

(** A grain as a pair whose payload is None, bytes or deferred bytes. (The payload of an event grain is none of these.) *)
Record dgrain := mkDg { dg_meta : dict; dg_data : option operand }.
(** The payloads as elements of tuples: == with identity first. *)
Definition data_eq (h : store) (a b : option operand) : store * res bool :=
  match a, b with
  | None, None => (h, Ok true)
  | Some x, Some y => if identical x y then (h, Ok true) else compare h CEq x y
  | Some (Defer i), None | None, Some (Defer i) => let (h1, r) := fetch h i in (h1, rbind r (fun _ => Ok false))
  | _, _ => (h, Ok false)
  end.
(** [g == g'], Grain.py 362-363: the tuple of the other grain is compared with one's own. *)
Definition dgrain_eq (h : store) (g g' : dgrain) : store * res bool :=
  if py_eq (PDict (dg_meta g')) (PDict (dg_meta g)) then data_eq h (dg_data g') (dg_data g) else (h, Ok false).
(** copy.copy keeps the payload (Grain.py 368-369). copy.deepcopy (371-372) finds the __reduce_ex__ of the loaded bytes, and gives
    bytes. *)
Definition shallow (h : store) (g : dgrain) : dgrain := g.
Definition deep (h : store) (g : dgrain) : store * res dgrain :=
  match dg_data g with
  | Some (Defer i) => let (h1, r) := fetch h i in (h1, rbind r (fun d => Ok (mkDg (dg_meta g) (Some (Plain d)))))
  | _ => (h, Ok g)
  end.
