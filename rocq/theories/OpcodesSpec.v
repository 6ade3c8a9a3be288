(** What operations turn one sequence into another, and what is to be said about two payloads. *)
From Verif Require Import Base Opcodes.

Definition alike_one_by_one {A} (eqb : A -> A -> bool) (u v : list A) : Prop := Forall2 (fun x y => eqb x y = true) u v.
(** The operations start at places i and j, and take the rest of both sequences piece by piece; no piece is empty. *)
Inductive script {A} (eqb : A -> A -> bool) : nat -> nat -> list A -> list A -> list op -> Prop :=
| sc_end i j : script eqb i j [] [] []
| sc_equal i j u v a b l : u <> [] -> alike_one_by_one eqb u v -> script eqb (i + length u) (j + length v) a b l ->
    script eqb i j (u ++ a) (v ++ b) (Op Equal i (i + length u) j (j + length v) :: l)
| sc_replace i j u v a b l : u <> [] -> v <> [] -> script eqb (i + length u) (j + length v) a b l ->
    script eqb i j (u ++ a) (v ++ b) (Op Replace i (i + length u) j (j + length v) :: l)
| sc_delete i j u a b l : u <> [] -> script eqb (i + length u) j a b l -> script eqb i j (u ++ a) b (Op Delete i (i + length u) j j :: l)
| sc_insert i j v a b l : v <> [] -> script eqb i (j + length v) a b l -> script eqb i j a (v ++ b) (Op Insert i i j (j + length v) :: l).
(** Operations alternate: of two neighbours exactly one is of equal pieces. *)
Fixpoint alternate (l : list op) : Prop :=
  match l with o :: ((p :: _) as r) => is_equal o <> is_equal p /\ alternate r | _ => True end.
(** b from a. *)
Definition piece {A} (a b : list A) (o : op) : list A :=
  match op_tag o with Equal => cut a (op_i1 o) (op_i2 o) | Delete => [] | _ => cut b (op_j1 o) (op_j2 o) end.
Definition rebuilt {A} (a b : list A) (l : list op) : list A := flat_map (piece a b) l.

(** a goes on where b ends. *)
Definition goes_on {A} (eqb : A -> A -> bool) (a b : list A) : Prop := (length b < length a)%nat /\ alike_one_by_one eqb (firstn (length b) a) b.
(** What is said about two payloads that are there and compared. *)
Definition said {A} (eqb : A -> A -> bool) (a b : list A) (verdict : bool) (n : note A) : Prop :=
  match n with
  | AllSame => verdict = true /\ alike_one_by_one eqb a b
  | Extra true d i x => verdict = false /\ goes_on eqb a b /\ d = zlen a - zlen b /\ i = length b /\ nth_error a i = Some x
  | Extra false d i x => verdict = false /\ (length a < length b)%nat /\ alike_one_by_one eqb a (firstn (length a) b) /\ d = zlen b - zlen a /\ i = length a /\ nth_error b i = Some x
  | Differ i x y => verdict = false /\ nth_error a i = Some x /\ nth_error b i = Some y /\ alike_one_by_one eqb (firstn i a) (firstn i b) /\
      exists j u v, (i <= j)%nat /\ nth_error a j = Some u /\ nth_error b j = Some v /\ eqb u v = false
  | _ => False
  end.
