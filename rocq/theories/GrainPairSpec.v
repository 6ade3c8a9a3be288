(** What equal grains should be: equal metadata and the same payload, so that nothing tells them apart. *)
From Coq Require Import String.
From Verif Require Import Base PyValue GrainObj GrainPair.
Local Open Scope list_scope.

(** Equal metadata, and payloads that can be read and are the same. *)
Definition alike (a b : gobj) : Prop :=
  py_eq (PDict (o_meta a)) (PDict (o_meta b)) = true /\ exists d, get_data a = Ok d /\ get_data b = Ok d.
(** Two attempts to read something: equal values, or the same exception. *)
Definition both_read {A} (same : A -> A -> Prop) (x y : res A) : Prop :=
  (exists u v, x = Ok u /\ y = Ok v /\ same u v) \/ exists e, x = Err e /\ y = Err e.
Definition equal_values (v w : pv) : Prop := py_eq v w = true.
Definition equal_dicts (d e : dict) : Prop := py_eq (PDict d) (PDict e) = true.
(** The payload can be read. *)
Definition has_payload (o : gobj) : Prop := exists d, get_data o = Ok d.
