(** What the language reference says of format strings (Format String Syntax), as far as it concerns the identifiers of
    /repo/mediagrains/comparison/_internal.py (225-231, 300-354): text in which braces are doubled, and fields. *)
From Verif Require Import Base.

(** A text written with its braces doubled. *)
Definition doubled (s : str) : str := flat_map (fun c => if (c =? 123) || (c =? 125) then [c; c] else [c]) s.

(** Names of fields: anything is allowed in square brackets. *)
Inductive fname : str -> Prop :=
| fn_end : fname []
| fn_plain c n : ~ In c [123; 125; 58; 33; 91] -> fname n -> fname (c :: n)
| fn_index b n : ~ In 93 b -> fname n -> fname (91 :: b ++ 93 :: n).
(** Specifications: braces are balanced. *)
Inductive balanced : str -> Prop :=
| ba_end : balanced []
| ba_plain c s : c <> 123 -> c <> 125 -> balanced s -> balanced (c :: s)
| ba_nest a b : balanced a -> balanced b -> balanced (123 :: a ++ 125 :: b).
(** The text [s] begins with a field of the name [n] (the opening brace is left out). *)
Definition field (n s : str) : Prop := fname n /\ exists conversion spec rest,
  s = n ++ conversion ++ spec ++ 125 :: rest /\ (conversion = [] \/ exists c, conversion = [33; c]) /\
  (spec = [] \/ exists a, spec = 58 :: a /\ balanced a).
(** The argument the name is of: what is before the attributes and indices. *)
Definition argument (h n : str) : Prop := (forall c, In c h -> c <> 46 /\ c <> 91) /\
  exists t, n = h ++ t /\ (t = [] \/ exists c u, t = c :: u /\ (c = 46 \/ c = 91)).
(** The first field of [s] is of such an argument. *)
Definition asks (P : str -> Prop) (s : str) : Prop :=
  exists p q n h, s = doubled p ++ 123 :: q /\ field n q /\ argument h n /\ P h.
Definition next_one (h : str) : Prop := h = [].
Definition named (h : str) : Prop := exists c, In c h /\ ~ 48 <= c <= 57.
