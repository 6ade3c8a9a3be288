(** The texts of a comparison: ComparisonResult.msg and _str, comparison/_internal.py 118-127 and 175-193, and DataEqualityComparisonResult._str, 357-384.
    The message of a comparison itself ([_msg]) is the parameter [own]; the lines that a comparison of payloads adds, without the spaces before
    them, are the parameter [more], which is empty for the others (C68 says what is in them). *)
From Coq Require Import String.
From Verif Require Import Base PyValue GrainObj Compare.
Local Open Scope list_scope.

(** [sep.join(l)] *)
Fixpoint joined (sep : str) (l : list str) : str :=
  match l with [] => [] | [x] => x | x :: l => x ++ sep ++ joined sep l end.
(** msg, 118-127. *)
Fixpoint msg (own : cres -> str) (r : cres) : str :=
  match r with
  | CR _ _ _ _ _ children =>
      let msgs := flat_map (fun c => if negb (r_equal c) && negb (excluded c) then [$"(" ++ msg own c ++ $")"] else []) children ++
                  flat_map (fun c => if negb (r_equal c) && excluded c then [$"<IGNORING: " ++ msg own c ++ $">"] else []) children in
      match msgs with [] => own r | _ => own r ++ $": " ++ joined $"; " msgs end
  end.
(** The first characters, 178-183 and 359-364: a circle, a tick or a cross, and three spaces. *)
Definition mark (r : cres) : str := (if excluded r then 0x25EF else if r_equal r then 0x2705 else 0x274c) :: $"   ".
(** _str, 175-190 and 357-384: a comparison of payloads has no children. *)
Fixpoint show (own : cres -> str) (more : cres -> list str) (prefix : str) (r : cres) : str :=
  match r with
  | CR _ _ _ _ _ children =>
      let first := prefix ++ mark r ++ own r in
      match children with
      | [] => first ++ flat_map (fun l => [10] ++ (prefix ++ $"  ") ++ l) (more r)
      | _ => first ++ [10] ++ joined [10] (map (show own more (prefix ++ $"  ")) children)
      end
  end.
(** __str__, 192-193. *)
Definition to_str (own : cres -> str) (more : cres -> list str) (r : cres) : str := show own more [] r.
