(** Grains as pairs of metadata and payload: /repo/mediagrains/grains/Grain.py 341-366 and 375-382. The payload is None or
    bytes; buffers that are equal to bytes count as bytes. The methods inherited from collections.abc.Sequence are
    modelled as they are written there; the others than iteration are in GrainSeq.v. Hashing is not modelled. *)
From Coq Require Import String.
From Verif Require Import Base PyValue PyList GrainObj.
Local Open Scope list_scope.

(** The elements: a dictionary, and bytes or None. *)
Inductive item := IMeta (d : dict) | IData (b : option bytes).
(** [x == y]: dictionaries, bytes and None are never equal to one another. *)
Definition item_eq (x y : item) : bool :=
  match x, y with
  | IMeta d, IMeta e => py_eq (PDict d) (PDict e)
  | IData (Some b), IData (Some c) => zlist_eqb b c
  | IData None, IData None => true
  | _, _ => false
  end.
(** [(self.meta, self.data)]: Grain.py 356. *)
Definition pair_of (o : gobj) : res (list item) := rbind (get_data o) (fun b => Ok [IMeta (o_meta o); IData b]).
(** __len__ and __getitem__: Grain.py 341-342, 355-356. *)
Definition pair_len (o : gobj) : Z := 2.
Definition pair_get (o : gobj) (i : Z) : res item := rbind (pair_of o) (fun l => lget l i).
Definition pair_slice (o : gobj) (s : pslice) : res (list item) := rbind (pair_of o) (fun l => lslice l s).
(** Sequence.__iter__: the elements at 0, 1, ... up to the first IndexError, with fuel. *)
Fixpoint pair_from (fuel : nat) (i : Z) (o : gobj) : res (list item) :=
  match fuel with
  | O => Err EFuel
  | S fuel =>
      match pair_get o i with
      | Ok x => rbind (pair_from fuel (i + 1) o) (fun l => Ok (x :: l))
      | Err EIndex => Ok []
      | Err e => Err e
      end
  end.
(** [tuple(self)]. *)
Definition as_tuple (o : gobj) : res (list item) := pair_from 3 0 o.
(** [t == u] for tuples. *)
Fixpoint tuple_eq (t u : list item) : bool :=
  match t, u with [], [] => true | x :: t, y :: u => item_eq x y && tuple_eq t u | _, _ => false end.
(** What a grain can be compared with: a grain, a tuple of such elements, or anything else that is not a tuple. *)
Inductive other := OGrain (o : gobj) | OTuple (l : list item) | OElse.
(** __eq__, Grain.py 362-363: a tuple does not know grains, so with a grain the comparison goes to the other grain, which
    compares its own tuple with this one. *)
Definition grain_eq (o : gobj) (x : other) : res bool :=
  rbind (as_tuple o) (fun t =>
  match x with
  | OGrain o' => rbind (as_tuple o') (fun t' => Ok (tuple_eq t' t))
  | OTuple l => Ok (tuple_eq t l)
  | OElse => Ok false
  end).
(** __ne__, Grain.py 365-366. *)
Definition grain_ne (o : gobj) (x : other) : res bool := rbind (grain_eq o x) (fun b => Ok (negb b)).
(** has_data and __bytes__, Grain.py 375-382: they look at the stored payload, which an event grain does not have.
    [bytes(g)] refuses None. *)
Definition has_data (o : gobj) : bool := match o_data o with Some _ => true | None => false end.
Definition to_bytes (o : gobj) : res bytes := match o_data o with Some b => Ok b | None => Err EType end.
