(** What indexing a list means, without arithmetic on positions. *)
From Verif Require Import Base.

(** [l[i]] is x, with a before it and b after it. *)
Definition at_index {A} (l : list A) (i : Z) (a : list A) (x : A) (b : list A) : Prop := l = a ++ x :: b /\ (i = zlen a \/ i = - zlen b - 1).
Definition no_index {A} (l : list A) (i : Z) : Prop := forall a x b, ~ at_index l i a x b.
(** Inserting at i goes between a and b. *)
Definition between {A} (l : list A) (i : Z) (a b : list A) : Prop :=
  l = a ++ b /\ (i = zlen a \/ (i = - zlen b /\ b <> []) \/ (b = [] /\ zlen a < i) \/ (a = [] /\ i < - zlen b)).
