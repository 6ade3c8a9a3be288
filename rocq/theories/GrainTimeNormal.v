(** Normalising times: whole counts stay, ranges become half open, and a second time changes nothing. *)
From Coq Require Import String Lia ZifyBool.
From Verif Require Import Base CogEnums GsfPrim GsfDecode PyValue PatternTime PatternSpec PatternTimeProofs GrainObj GrainGsf GrainTime GrainTimeSpec GrainTimeProofs.
Local Open Scope list_scope.

(** A picture of that rate, or sound of that sample rate. *)
Definition runs_at (o : gobj) (r : rate) : Prop := (exists t, picture_at o t r) \/ (exists t n, samples_from o t n (fst r) /\ snd r = 1).

Lemma runs_rate o r : runs_at o r -> 0 < fst r -> media_rate o = Ok (Some r).
Proof.
  intros [(t & C & T & R)|(t & n & S & D)] P.
  - unfold media_rate. rewrite (attr_ok _ _ _ _ R). cbn [as_frac rbind]. destruct r as [a b]. cbn [fst snd] in *. replace (a =? 0) with false by lia. destruct C as [-> | ->]; reflexivity.
  - destruct r as [a b]. cbn [fst snd] in *. subst b. exact (media_audio o t n a S P).
Qed.
Lemma normal_grid k r c d (i : bool) : clock_ok k -> slow r ->
  normal_span k r (Span (grid k r c) (grid k r d) i) = Ok (time_range (grid k r c) (grid k r (d + if i then 1 else 0)) false).
Proof.
  intros K S. unfold normal_span. replace ((fst r <=? 0) || (snd r <=? 0)) with false by (destruct S as (P & Q & _); lia). rewrite !count_grid by assumption. reflexivity.
Qed.
Lemma range_grid k r c d : clock_ok k -> slow r -> c < d -> time_range (grid k r c) (grid k r d) false = Span (grid k r c) (grid k r d) false.
Proof. intros K S L. pose proof (grid_strict k r c d K S L) as G. unfold time_range. replace (_ || _) with false by lia. reflexivity. Qed.

Theorem normal_counts k o r c d : clock_ok k -> slow r -> runs_at o r ->
  normalise_time k o (grid k r c) = Ok (grid k r c) /\
  (c < d -> normalise_range k o (Span (grid k r c) (grid k r d) false) = Ok (Span (grid k r c) (grid k r d) false)) /\
  (c <= d -> normalise_range k o (Span (grid k r c) (grid k r d) true) = Ok (Span (grid k r c) (grid k r (d + 1)) false)) /\
  normalise_range k o (Span (grid k r c) (grid k r c) false) = Ok Never /\ normalise_range k o Never = Ok Never.
Proof.
  intros K S R. pose proof (proj1 S) as P. pose proof (runs_rate o r R P) as M. unfold normalise_time, normalise_range. rewrite M. cbn [rbind]. split.
  { unfold normal_time. replace ((fst r <=? 0) || (snd r <=? 0)) with false by (destruct S as (A & B & _); lia). rewrite count_grid by assumption. reflexivity. }
  rewrite !normal_grid by assumption. rewrite !Z.add_0_r. split; [|split; [|split]].
  - intros L. rewrite range_grid by assumption. reflexivity.
  - intros L. rewrite range_grid by (assumption || lia). reflexivity.
  - unfold time_range. rewrite Z.eqb_refl, Z.ltb_irrefl. reflexivity.
  - unfold normal_span. replace ((fst r <=? 0) || (snd r <=? 0)) with false by (destruct S as (A & B & _); lia). reflexivity.
Qed.

(** Every range comes out between whole counts, or as none, and then stays. *)
Theorem normal_twice k o r s s' : clock_ok k -> slow r -> runs_at o r -> normalise_range k o s = Ok s' ->
  normalise_range k o s' = Ok s' /\ (s' = Never \/ exists c d, c < d /\ s' = Span (grid k r c) (grid k r d) false).
Proof.
  intros K S R E. pose proof (proj1 S) as P. pose proof (runs_rate o r R P) as M.
  assert (C : s' = Never \/ exists c d, c < d /\ s' = Span (grid k r c) (grid k r d) false).
  { unfold normalise_range in E. rewrite M in E. cbn [rbind] in E. unfold normal_span in E. replace ((fst r <=? 0) || (snd r <=? 0)) with false in E by (destruct S as (A & B & _); lia).
    destruct s as [|a b i]; [left; congruence|]. set (x := to_count k a _ _) in E. set (y := to_count k b _ _ + _) in E.
    change (from_count k x (fst r) (snd r)) with (grid k r x) in E. change (from_count k y (fst r) (snd r)) with (grid k r y) in E.
    destruct (Z_lt_le_dec x y) as [L|L].
    - rewrite range_grid in E by assumption. right. exists x, y. split; [exact L|congruence].
    - left. unfold time_range in E. pose proof (proj2 (grid_le k r y x K S) L) as G. replace (_ || _) with true in E by lia. congruence. }
  split; [|exact C]. destruct (normal_counts k o r 0 0 K S R) as (_ & _ & _ & _ & N). destruct C as [-> |(c & d & L & ->)]; [exact N|]. apply (normal_counts k o r c d K S R). exact L.
Qed.

(** Without a rate nothing is changed. *)
Theorem normal_none k o t s : match o_class o with
    | KVideo | KCodedVideo => exists d, getattr o $"rate" = Ok (PFrac 0 d)
    | KAudio | KCodedAudio => getattr o $"sample_rate" = Ok (PInt 0)
    | _ => True end ->
  normalise_time k o t = Ok t /\ normalise_range k o s = Ok s.
Proof.
  intros H. assert (M : media_rate o = Ok None).
  { unfold media_rate. destruct (o_class o); try reflexivity; try (destruct H as (d & H)); rewrite (attr_ok _ _ _ _ H); reflexivity. }
  unfold normalise_time, normalise_range. rewrite M. split; reflexivity.
Qed.
