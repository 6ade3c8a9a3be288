(** [str.format] of the Python standard library with one argument, as /repo/mediagrains/comparison/_internal.py uses it on
    identifiers (225-231, 300-354, 398-419, 430-453, 462-479, 879-888): the fields are read as CPython's MarkupIterator does. An identifier
    has its field [{}] first, perhaps after "len(", and then names of keys, which can contain braces. Decimal digits of other scripts do
    not count as digits here. *)
From Verif Require Import Base.

(** parse_field: the name of a field, the character that ends it and the rest. What is in square brackets is not looked at. *)
Fixpoint field_name (bracket : bool) (s : str) : res (str * Z * str) :=
  match s with
  | [] => Err EValue
  | c :: s =>
      let more b := rbind (field_name b s) (fun '(n, e, s) => Ok (c :: n, e, s)) in
      if bracket then more (negb (c =? 93))
      else if c =? 123 then Err EValue
      else if (c =? 125) || (c =? 58) || (c =? 33) then Ok ([], c, s)
      else more (c =? 91)
  end.
(** The end of a format specification in which [n] braces are open. *)
Fixpoint spec_end (n : nat) (s : str) : res unit :=
  match s with
  | [] => Err EValue
  | c :: s => if c =? 123 then spec_end (S n) s else if c =? 125 then match n with S (S n) => spec_end (S n) s | _ => Ok tt end else spec_end n s
  end.
(** What follows the name: nothing, a conversion, a specification or both. *)
Definition field_end (c : Z) (s : str) : res unit :=
  if c =? 125 then Ok tt
  else if c =? 58 then spec_end 1 s
  else match s with
       | [] => Err EValue
       | _ :: [] => Err EValue
       | _ :: d :: s => if d =? 125 then Ok tt else if d =? 58 then spec_end 1 s else Err EValue
       end.
(** The name up to a dot or a bracket. *)
Fixpoint first_part (n : str) : str := match n with c :: n => if (c =? 46) || (c =? 91) then [] else c :: first_part n | [] => [] end.
Definition is_digit (c : Z) : bool := (48 <=? c) && (c <=? 57).
(** A second field: there is no second argument, numbers cannot follow automatic ones, and there are no names. *)
Definition field_error (s : str) : err :=
  match rbind (field_name false s) (fun '(n, c, s) => rbind (field_end c s) (fun _ => Ok (first_part n))) with
  | Err e => e
  | Ok [] => EIndex
  | Ok n => if forallb is_digit n then EValue else EKey
  end.
(** The text after the first field. *)
Fixpoint format_rest (s : str) : res str :=
  match s with
  | [] => Ok []
  | c :: t =>
      if c =? 125 then match t with [] => Err EValue | d :: t => if d =? 125 then rbind (format_rest t) (fun r => Ok (c :: r)) else Err EValue end
      else if c =? 123 then match t with [] => Err EValue | d :: t' => if d =? 123 then rbind (format_rest t') (fun r => Ok (c :: r)) else Err (field_error t) end
      else rbind (format_rest t) (fun r => Ok (c :: r))
  end.
(** [identifier.format(x)]. *)
Fixpoint id_format (id x : str) : res str :=
  match id with
  | [] => Ok []
  | c :: t =>
      if c =? 123 then match t with [] => Err EValue | _ :: t => rbind (format_rest t) (fun r => Ok (x ++ r)) end
      else rbind (id_format t x) (fun r => Ok (c :: r))
  end.
