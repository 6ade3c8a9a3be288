(** What the texts of a comparison should say. *)
From Coq Require Import String.
From Verif Require Import Base PyValue GrainObj Compare.
Local Open Scope list_scope.

(** ** The message. *)
Definition within (s t : str) : Prop := exists p q, t = p ++ s ++ q.
(** The comparisons on the way down through failed ones, and of these the ones on a way with nothing excluded. *)
Inductive mentioned : cres -> cres -> Prop :=
| men_self r : mentioned r r
| men_child r c d : In c (r_children r) -> r_equal c = false -> mentioned c d -> mentioned r d.
Inductive blamed : cres -> cres -> Prop :=
| bl_child r c : In c (r_children r) -> r_equal c = false -> excluded c = false -> blamed r c
| bl_deeper r c d : In c (r_children r) -> r_equal c = false -> excluded c = false -> blamed c d -> blamed r d.

(** ** The text on several lines. *)
Inductive on_lines : list str -> str -> Prop :=
| ol_last l : ~ In 10 l -> on_lines [l] l
| ol_line l ls t : ~ In 10 l -> on_lines ls t -> on_lines (l :: ls) (l ++ 10 :: t).
(** A circle: ignored; a tick: the same; a cross: not the same. *)
Inductive sign (r : cres) : Z -> Prop :=
| sg_circle : excluded r = true -> sign r 0x25EF
| sg_tick : excluded r = false -> r_equal r = true -> sign r 0x2705
| sg_cross : excluded r = false -> r_equal r = false -> sign r 0x274c.
Definition spaces (n : nat) : str := repeat 32 n.
(** One line for each comparison, those below it indented by two more spaces, and the details below a comparison without parts. *)
Inductive page (own : cres -> str) (more : cres -> list str) : nat -> cres -> list str -> Prop :=
| pg_leaf d r z : r_children r = [] -> sign r z ->
    page own more d r ((spaces d ++ z :: $"   " ++ own r) :: map (fun l => spaces (d + 2) ++ l) (more r))
| pg_tree d r z parts : r_children r <> [] -> sign r z -> Forall2 (page own more (d + 2)) (r_children r) parts ->
    page own more d r ((spaces d ++ z :: $"   " ++ own r) :: concat parts).
Inductive part_of : cres -> cres -> Prop :=
| po_self r : part_of r r
| po_child r c d : In c (r_children r) -> part_of c d -> part_of r d.
(** Messages and details are single lines, and details are not taken for comparisons or indented further. *)
Definition detail (l : str) : Prop := ~ In 10 l /\ exists c s, l = c :: s /\ ~ In c [32; 0x25EF; 0x2705; 0x274c].
Record tidy (own : cres -> str) (more : cres -> list str) (r : cres) : Prop := {
  td_own : forall c, part_of r c -> ~ In 10 (own c);
  td_more : forall c, part_of r c -> r_children c = [] -> Forall detail (more c) }.
(** Two comparisons that look the same, all through. *)
Inductive alike (own : cres -> str) (more : cres -> list str) (own' : cres -> str) (more' : cres -> list str) : cres -> cres -> Prop :=
| ak r r' : (excluded r = excluded r') -> (excluded r = false -> r_equal r = r_equal r') -> own r = own' r' ->
    (r_children r = [] -> more r = more' r') -> Forall2 (alike own more own' more') (r_children r) (r_children r') -> alike own more own' more' r r'.
