(** The grammar of JSON (RFC 8259) over code points, and what its texts mean in Python. Numbers are the integers only; strings are
    those of RFC 8259: every character but the quotation mark, the reverse solidus and the control characters, or an escape. *)
From Coq Require Import String.
From Verif Require Import Base PyValue.
Local Open Scope list_scope.

(** White space. *)
Definition blank (w : str) : Prop := Forall (fun c => In c [32; 9; 10; 13]) w.

(** ** Strings. *)
Inductive hex_is (c : Z) : Z -> Prop :=
| hex_digit_is : 48 <= c <= 57 -> hex_is c (c - 48)
| hex_lower_is : 97 <= c <= 102 -> hex_is c (10 + (c - 97))
| hex_upper_is : 65 <= c <= 70 -> hex_is c (10 + (c - 65)).
Inductive four : str -> Z -> Prop :=
| four_of a b c d i j k l : hex_is a i -> hex_is b j -> hex_is c k -> hex_is d l -> four [a; b; c; d] (((i * 16 + j) * 16 + k) * 16 + l).
Definition high (u : Z) : Prop := 0xd800 <= u <= 0xdbff.
Definition low (u : Z) : Prop := 0xdc00 <= u <= 0xdfff.
Definition starts_low (t : str) : Prop := exists h u r, t = 92 :: 117 :: h ++ r /\ four h u /\ low u.
(** The characters between the quotation marks, and the characters they stand for. *)
Inductive chars : str -> str -> Prop :=
| ch_end : chars [] []
| ch_plain c t v : 32 <= c -> c <> 34 -> c <> 92 -> chars t v -> chars (c :: t) (c :: v)
| ch_escape e c t v : In (e, c) [(34, 34); (92, 92); (47, 47); (98, 8); (102, 12); (110, 10); (114, 13); (116, 9)] -> chars t v ->
    chars (92 :: e :: t) (c :: v)
| ch_unit h u t v : four h u -> ~ (high u /\ starts_low t) -> chars t v -> chars (92 :: 117 :: h ++ t) (u :: v)
| ch_pair h u h' u' t v : four h u -> high u -> four h' u' -> low u' -> chars t v ->
    chars (92 :: 117 :: h ++ 92 :: 117 :: h' ++ t) (0x10000 + (u - 0xd800) * 0x400 + (u' - 0xdc00) :: v).

(** ** Integers. *)
Definition decimal (ds : str) : Z := fold_left (fun a c => 10 * a + (c - 48)) ds 0.
Definition natural (ds : str) : Prop := ds <> [] /\ Forall (fun c => 48 <= c <= 57) ds /\ (hd 0 ds = 48 -> ds = [48]).
Inductive number : str -> Z -> Prop :=
| num_plain ds : natural ds -> number ds (decimal ds)
| num_minus ds : natural ds -> number (45 :: ds) (- decimal ds).

(** ** Objects: of the members with one name the last counts; the names keep the order in which they come first. *)
Fixpoint firsts (seen l : list str) : list str :=
  match l with
  | [] => []
  | k :: l => if existsb (zlist_eqb k) seen then firsts seen l else k :: firsts (k :: seen) l
  end.
Definition gathers (d e : dict) : Prop := map fst e = firsts [] (map fst d) /\ forall k, dget k e = dget k (rev d).

(** ** Values. *)
Inductive text : str -> pv -> Prop :=
| txt_null : text (s2z "null"%string) PNone
| txt_true : text (s2z "true"%string) (PBool true)
| txt_false : text (s2z "false"%string) (PBool false)
| txt_number t z : number t z -> text t (PInt z)
| txt_string t v : chars t v -> text (34 :: t ++ [34]) (PStr v)
| txt_none w : blank w -> text (91 :: w ++ [93]) (PList [])
| txt_list t l : elements t l -> text (91 :: t ++ [93]) (PList l)
| txt_empty w : blank w -> text (123 :: w ++ [125]) (PDict [])
| txt_dict t d e : members t d -> gathers d e -> text (123 :: t ++ [125]) (PDict e)
with elements : str -> list pv -> Prop :=
| el_one w1 t v w2 : blank w1 -> text t v -> blank w2 -> elements (w1 ++ t ++ w2) [v]
| el_more w1 t v w2 r l : blank w1 -> text t v -> blank w2 -> elements r l -> elements (w1 ++ t ++ w2 ++ 44 :: r) (v :: l)
with members : str -> dict -> Prop :=
| mem_one w1 kt k w2 w3 t v w4 : blank w1 -> chars kt k -> blank w2 -> blank w3 -> text t v -> blank w4 ->
    members (w1 ++ (34 :: kt ++ [34]) ++ w2 ++ 58 :: w3 ++ t ++ w4) [(k, v)]
| mem_more w1 kt k w2 w3 t v w4 r d : blank w1 -> chars kt k -> blank w2 -> blank w3 -> text t v -> blank w4 -> members r d ->
    members (w1 ++ (34 :: kt ++ [34]) ++ w2 ++ 58 :: w3 ++ t ++ w4 ++ 44 :: r) ((k, v) :: d).
(** A JSON text: a value with white space around it. *)
Definition json_text (s : str) (v : pv) : Prop := exists w1 t w2, blank w1 /\ text t v /\ blank w2 /\ s = w1 ++ t ++ w2.
