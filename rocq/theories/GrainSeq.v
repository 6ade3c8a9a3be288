(** What grains inherit from collections.abc.Sequence besides iteration (/repo/mediagrains/grains/Grain.py 170, its base class, and 341-356): in,
    reversed, index and count, as Lib/_collections_abc.py of the standard library has them. The value looked for is not one of the very
    objects in the grain. *)
From Coq Require Import String.
From Verif Require Import Base PyValue PyList GrainObj GrainPair.
Local Open Scope list_scope.

(** Sequence.__contains__: the loop from [i] on, with fuel. *)
Fixpoint contains_from (fuel : nat) (i : Z) (o : gobj) (v : item) : res bool :=
  match fuel with
  | O => Err EFuel
  | S fuel =>
      match pair_get o i with
      | Ok x => if item_eq x v then Ok true else contains_from fuel (i + 1) o v
      | Err EIndex => Ok false
      | Err e => Err e
      end
  end.
Definition seq_contains (o : gobj) (v : item) : res bool := contains_from 3 0 o v.
(** Sequence.count: sum(1 for v in self if v is value or v == value). *)
Definition seq_count (o : gobj) (v : item) : res Z := rbind (as_tuple o) (fun l => Ok (zlen (filter (fun x => item_eq x v) l))).
(** Sequence.__reversed__: the items at len(self) - 1, ..., 0. *)
Definition seq_reversed (o : gobj) : res (list item) :=
  rbind (pair_get o (pair_len o - 1)) (fun x => rbind (pair_get o (pair_len o - 2)) (fun y => Ok [x; y])).
(** Sequence.index(value, start=0, stop=None): the loop, and the bounds. *)
Fixpoint index_from (fuel : nat) (i : Z) (stop : option Z) (o : gobj) (v : item) : res Z :=
  match fuel with
  | O => Err EFuel
  | S fuel =>
      if match stop with None => true | Some s => i <? s end then
        match pair_get o i with
        | Ok x => if item_eq x v then Ok i else index_from fuel (i + 1) stop o v
        | Err EIndex => Err EValue
        | Err e => Err e
        end
      else Err EValue
  end.
Definition seq_index (o : gobj) (v : item) (start : Z) (stop : option Z) : res Z :=
  let start := if start <? 0 then Z.max (pair_len o + start) 0 else start in
  let stop := option_map (fun s => if s <? 0 then s + pair_len o else s) stop in
  index_from 3 start stop o v.
