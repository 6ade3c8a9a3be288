(** Where a value is in a grain, and the bounds of a search. *)
From Verif Require Import Base PyValue PyList GrainObj GrainPair.

(** The places of a value in the pair. *)
Definition stands_at (a : gobj) (b : option bytes) (v : item) (i : Z) : Prop :=
  (i = 0 /\ item_eq (IMeta (o_meta a)) v = true) \/ (i = 1 /\ item_eq (IData b) v = true).
(** Bounds as of slices: negative ones count from the end. *)
Definition from_bound (start i : Z) : Prop := (0 <= start -> start <= i) /\ (start < 0 -> 2 + start <= i).
Definition below_bound (stop : option Z) (i : Z) : Prop := forall s, stop = Some s -> (0 <= s -> i < s) /\ (s < 0 -> i < 2 + s).
