(** What the options of the tools should mean. *)
From Coq Require Import String.
From Verif Require Import Base PyValue GrainObj BuildSpec.
Local Open Scope list_scope.

(** The numerals of Python: digits with single underscores between them, and a sign. *)
Definition digit (c : Z) : Prop := 48 <= c <= 57.
Inductive numeral : str -> Z -> Prop :=
| first_digit c : digit c -> numeral [c] (c - 48)
| next_digit s n c : numeral s n -> digit c -> numeral (s ++ [c]) (10 * n + (c - 48))
| under_digit s n c : numeral s n -> digit c -> numeral (s ++ [95; c]) (10 * n + (c - 48)).
Inductive signed : str -> Z -> Prop :=
| no_sign s n : numeral s n -> signed s n
| plus_sign s n : numeral s n -> signed (43 :: s) n
| minus_sign s n : numeral s n -> signed (45 :: s) (- n).
(** A size as text: two numerals around an x, with white space around both. *)
Definition blanks (s : str) : Prop := Forall (fun c => 9 <= c <= 13 \/ 28 <= c <= 32) s.
Definition size_text (s : str) (w h : Z) : Prop :=
  exists a b c d dw dh, blanks a /\ blanks b /\ blanks c /\ blanks d /\ signed dw w /\ signed dh h /\ s = a ++ dw ++ b ++ 120 :: c ++ dh ++ d.

(** What every template has: the identifiers, the start, and the rate and duration. *)
Record template_of (flow source start : Z) (rate duration : Z * Z) (t : gobj) : Prop := {
  tp_flow : attr_is t $"flow_id" (PUuid flow); tp_source : attr_is t $"source_id" (PUuid source);
  tp_origin : attr_is t $"origin_timestamp" (PTime start); tp_sync : attr_is t $"sync_timestamp" (PTime start);
  tp_rate : attr_is t $"rate" (PFrac (fst rate) (snd rate)); tp_duration : attr_is t $"duration" (PFrac (fst duration) (snd duration)) }.
(** The fraction [q] is n / d in lowest terms. *)
Definition lowest (n d : Z) (q : Z * Z) : Prop := 0 < snd q /\ Z.gcd (fst q) (snd q) = 1 /\ n * snd q = fst q * d.
