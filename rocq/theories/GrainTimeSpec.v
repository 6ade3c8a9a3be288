(** What the times of grains should be. *)
From Coq Require Import String.
From Verif Require Import Base PatternTime PatternSpec PyValue GrainObj GrainGsfSpec GrainTime.
Local Open Scope list_scope.

(** The times in a range. *)
Definition within (t : Z) (s : span) : Prop :=
  match s with Never => False | Span a b true => a <= t <= b | Span a b false => a <= t < b end.
Definition inside (t : Z) (s : span) : bool := match s with Never => false | Span a b i => (a <=? t) && (if i then t <=? b else t <? b) end.
Definition moved_by (d : Z) (s : span) : span := match s with Never => Never | Span a b i => Span (a + d) (b + d) i end.
(** Rates below two hundred and fifty million a second; a clock whose count 0 is time 0. *)
Definition slower (r : rate) : Prop := 0 < fst r /\ 0 < snd r /\ 4 * fst r < second * snd r.
Definition from_zero (k : clock) : Prop := forall n d, 0 < n -> 0 < d -> from_count k 0 n d = 0.

(** [n] samples at [r] a second, the first at time [t]; a picture at time [t] of a sequence at rate [r]. *)
Definition samples_from (o : gobj) (t n r : Z) : Prop :=
  (o_class o = KAudio \/ o_class o = KCodedAudio) /\ getattr o $"origin_timestamp" = Ok (PTime t) /\
  getattr o $"samples" = Ok (PInt n) /\ getattr o $"sample_rate" = Ok (PInt r).
Definition picture_at (o : gobj) (t : Z) (r : rate) : Prop :=
  (o_class o = KVideo \/ o_class o = KCodedVideo) /\ getattr o $"origin_timestamp" = Ok (PTime t) /\ getattr o $"rate" = Ok (PFrac (fst r) (snd r)).
(** Grains that follow each other, from count [c] on, with these numbers of samples. *)
Inductive in_turn (k : clock) (r : Z) : Z -> list gobj -> list Z -> Prop :=
| turn_end c : in_turn k r c [] []
| turn_next c o os n ns : 0 < n -> samples_from o (grid k (r, 1) c) n r -> in_turn k r (c + n) os ns -> in_turn k r c (o :: os) (n :: ns).
Definition total (ns : list Z) : Z := fold_right Z.add 0 ns.

(** The attributes the times depend on. *)
Definition time_names : list str := [$"origin_timestamp"; $"samples"; $"sample_rate"; $"rate"; $"temporal_offset"].
Record same_times (k : clock) (o o' : gobj) : Prop := {
  st_final : final_origin_timestamp k o' = final_origin_timestamp k o;
  st_range : origin_timerange k o' = origin_timerange k o;
  st_rate : media_rate o' = media_rate o;
  st_shown : presentation_origin_timestamp k o' = presentation_origin_timestamp k o;
  st_final_shown : final_presentation_origin_timestamp k o' = final_presentation_origin_timestamp k o;
  st_range_shown : presentation_origin_timerange k o' = presentation_origin_timerange k o }.

(** The smallest range with all of these in it. *)
Definition closed (s : span) : Prop := exists a b, s = Span a b true /\ a <= b.
Definition smallest (s : span) (ss : list span) : Prop :=
  (forall x, In x ss -> forall t, within t x -> within t s) /\
  forall s', closed s' -> (forall x, In x ss -> forall t, within t x -> within t s') -> forall t, within t s -> within t s'.

(** Numbers of samples, rates and offsets that are integers; of the offsets the one that the format has for "none" is not. *)
Definition plain_numbers (o : gobj) : Prop :=
  forall n v, In n [$"samples"; $"sample_rate"; $"temporal_offset"] -> getattr o n = Ok v -> v = PNone \/ exists z, v = PInt z /\ (n = $"temporal_offset" -> z <> 2147483647).
