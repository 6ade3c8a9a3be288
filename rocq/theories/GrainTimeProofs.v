(** The times of grains. *)
From Coq Require Import String Lia ZifyBool ZifyNat.
From Verif Require Import Base BaseProofs JsonProofs PyValue PyValueProofs CogEnums GsfEncode PatternTime PatternSpec PatternTimeProofs GrainObj GrainSet GrainSetSpec GrainSetMain
  GrainGsf GrainGsfSpec GrainTime GrainTimeSpec.
Local Open Scope list_scope.

Lemma slower_slow r : slower r -> slow r.
Proof. unfold slower, slow. intros (A & B & C). split; [exact A|]. split; [exact B|]. lia. Qed.
Lemma attr_ok {A} (f : pv -> res A) n o v : getattr o n = Ok v -> attr f n o = f v.
Proof. intros E. unfold attr. rewrite E. reflexivity. Qed.
Lemma range_in a b i t : within t (time_range a b i) <-> a <= t /\ (if i then t <= b else t < b).
Proof.
  unfold time_range. destruct i; destruct ((b <? a) || ((b =? a) && negb _)) eqn:E; cbn [within negb] in *; split; intros X; try destruct X; lia.
Qed.

(** ** Audio. *)
Lemma final_audio k o t n r : samples_from o t n r -> 0 < r -> final_origin_timestamp k o = Ok (t + from_count k (n - 1) r 1).
Proof.
  intros (C & T & S & R) P. unfold final_origin_timestamp. rewrite (attr_ok _ _ _ _ T), (attr_ok _ _ _ _ S), (attr_ok _ _ _ _ R). cbn [as_time as_count rbind]. unfold of_count. cbn [fst snd].
  replace ((r <=? 0) || (1 <=? 0)) with false by lia. destruct C as [-> | ->]; reflexivity.
Qed.
Lemma media_audio o t n r : samples_from o t n r -> 0 < r -> media_rate o = Ok (Some (r, 1)).
Proof. intros (C & T & S & R) P. unfold media_rate. rewrite (attr_ok _ _ _ _ R). cbn [as_count rbind]. replace (r =? 0) with false by lia. destruct C as [-> | ->]; reflexivity. Qed.
Theorem audio_range k o t n r : clock_ok k -> from_zero k -> slower (r, 1) -> samples_from o t n r -> 0 < n ->
  exists b, final_origin_timestamp k o = Ok b /\ origin_timerange k o = Ok (Span t b true) /\ t <= b /\ Z.abs ((b - t) * r - (n - 1) * second) <= r /\
    forall c, t = grid k (r, 1) c ->
      normalise_range k o (Span t b true) = Ok (Span t (grid k (r, 1) (c + n)) false) /\ normalise_time k o b = Ok (grid k (r, 1) (c + n - 1)) /\
      forall x, within (grid k (r, 1) x) (Span t (grid k (r, 1) (c + n)) false) <-> c <= x < c + n.
Proof.
  intros K Z0 S A N. pose proof (slower_slow _ S) as SL. destruct S as (R & _ & S4). cbn [fst snd] in *. pose proof (final_audio k o t n r A R) as F. pose proof (media_audio o t n r A R) as M.
  exists (t + from_count k (n - 1) r 1). set (d := from_count k (n - 1) r 1) in *. split; [exact F|].
  destruct (K r 1 R ltac:(lia)) as [K1 K2]. pose proof (K1 (n - 1)) as B. fold d in B.
  assert (D : 0 <= d).
  { destruct (Z.eq_dec n 1) as [->|N1]; [unfold d; change (1 - 1) with 0; rewrite (Z0 r 1 R ltac:(lia)); lia|]. clear - B S4 N N1 R. unfold second in *. nia. }
  assert (O : origin_timerange k o = Ok (Span t (t + d) true)).
  { unfold origin_timerange. destruct A as (C & T & _). rewrite (attr_ok _ _ _ _ T), F. cbn [as_time rbind]. unfold time_range. replace ((t + d <? t) || (_ && _)) with false by lia. reflexivity. }
  split; [exact O|]. split; [lia|]. split; [replace (t + d - t) with d by lia; clear - B; lia|].
  intros c ->. unfold normalise_range, normalise_time. rewrite M. cbn [rbind]. unfold normal_span, normal_time. cbn [fst snd]. replace ((r <=? 0) || (1 <=? 0)) with false by lia.
  assert (TC : to_count k (grid k (r, 1) c) r 1 = c) by exact (count_grid k (r, 1) c K SL).
  assert (TD : to_count k (grid k (r, 1) c + d) r 1 = c + n - 1).
  { pose proof (K1 c) as B1. pose proof (K2 (grid k (r, 1) c + d)) as B2. unfold grid in *. cbn [fst snd] in *. set (e := from_count k c r 1) in *. set (x := to_count k (e + d) r 1) in *. clearbody e d x. clear - B B1 B2 S4 R. unfold second in *. nia. }
  rewrite TC, TD. change (from_count k (c + n - 1) r 1) with (grid k (r, 1) (c + n - 1)). change (from_count k c r 1) with (grid k (r, 1) c).
  replace (c + n - 1 + 1) with (c + n) by lia. change (from_count k (c + n) r 1) with (grid k (r, 1) (c + n)). pose proof (grid_strict k (r, 1) c (c + n) K SL ltac:(lia)) as G.
  split; [unfold time_range; replace (_ || _) with false by lia; reflexivity|]. split; [reflexivity|]. intros x. cbn [within]. rewrite grid_le, grid_lt by assumption. reflexivity.
Qed.

(** ** Grains one after the other. *)
Lemma inside_within t s : inside t s = true <-> within t s.
Proof. destruct s as [|a b [|]]; cbn [inside within]; lia. Qed.
Lemma total_pos k r c os ns : in_turn k r c os ns -> 0 <= total ns.
Proof. unfold total. induction 1; cbn [fold_right]; lia. Qed.
Theorem stretch k r : clock_ok k -> from_zero k -> slower (r, 1) -> forall c os ns, in_turn k r c os ns ->
  exists ss, Forall2 (fun o s => rbind (origin_timerange k o) (normalise_range k o) = Ok s) os ss /\
    forall x, List.length (filter (inside (grid k (r, 1) x)) ss) = if (c <=? x) && (x <? c + total ns) then 1%nat else 0%nat.
Proof.
  intros K Z0 S c os ns T. induction T as [c|c o os n ns N A T (ss & F & U)].
  - exists []. split; [constructor|]. intros x. unfold total. cbn [fold_right filter List.length]. replace (_ && _) with false by lia. reflexivity.
  - destruct (audio_range k o _ n r K Z0 S A N) as (b & _ & O & _ & _ & Q). destruct (Q c eq_refl) as (Q1 & _ & Q3). set (s := Span (grid k (r, 1) c) (grid k (r, 1) (c + n)) false) in *.
    exists (s :: ss). split; [constructor; [rewrite O; exact Q1|exact F]|]. intros x. cbn [filter]. specialize (U x). specialize (Q3 x). rewrite <- inside_within in Q3. pose proof (total_pos _ _ _ _ _ T) as TP.
    unfold total in *. cbn [fold_right]. set (m := fold_right Z.add 0 ns) in *. destruct (inside (grid k (r, 1) x) s); cbn [List.length]; rewrite U.
    + assert (c <= x < c + n) by tauto. replace ((c + n <=? x) && (x <? c + n + m)) with false by lia. replace ((c <=? x) && (x <? c + (n + m))) with true by lia. reflexivity.
    + assert (~ (c <= x < c + n)) by (intros X; apply Q3 in X; discriminate). destruct ((c + n <=? x) && (x <? c + n + m)) eqn:E1, ((c <=? x) && (x <? c + (n + m))) eqn:E2; try reflexivity; lia.
Qed.

(** ** Pictures. *)
Lemma final_video k o t r : picture_at o t r -> final_origin_timestamp k o = Ok t.
Proof. intros (C & T & _). unfold final_origin_timestamp. rewrite (attr_ok _ _ _ _ T). destruct C as [-> | ->]; reflexivity. Qed.
Theorem video_range k o t r : picture_at o t r -> origin_timerange k o = Ok (Span t t true) /\ final_origin_timestamp k o = Ok t /\
  (clock_ok k -> slow r -> media_rate o = Ok (Some r) /\ forall c, t = grid k r c ->
    normalise_range k o (Span t t true) = Ok (Span t (grid k r (c + 1)) false) /\ normalise_time k o t = Ok t).
Proof.
  intros A. pose proof (final_video k o t r A) as F. destruct A as (C & T & R). split; [|split; [exact F|]].
  - unfold origin_timerange. rewrite (attr_ok _ _ _ _ T), F. cbn [as_time rbind]. unfold time_range. rewrite Z.ltb_irrefl, Bool.andb_false_r. reflexivity.
  - intros K S. assert (M : media_rate o = Ok (Some r)).
    { unfold media_rate. rewrite (attr_ok _ _ _ _ R). cbn [as_frac rbind]. destruct S as (P & _). destruct r as [n d]. cbn [fst snd] in *. replace (n =? 0) with false by lia. destruct C as [-> | ->]; reflexivity. }
    split; [exact M|]. intros c ->. unfold normalise_range, normalise_time. rewrite M. cbn [rbind]. unfold normal_span, normal_time.
    replace ((fst r <=? 0) || (snd r <=? 0)) with false by (destruct S as (P & Q & _); lia). rewrite count_grid by assumption.
    change (from_count k c (fst r) (snd r)) with (grid k r c). change (from_count k (c + 1) (fst r) (snd r)) with (grid k r (c + 1)). split; [|reflexivity].
    pose proof (grid_strict k r c (c + 1) K S ltac:(lia)) as G. unfold time_range. replace (_ || _) with false by lia. reflexivity.
Qed.

(** ** Presentation. *)
Theorem shown_range k o : (forall n, o_class o = KCodedVideo -> getattr o $"temporal_offset" = Ok (PInt n) -> forall t r, picture_at o t r -> clock_ok k -> slow r ->
    presentation_origin_timestamp k o = Ok (t + grid k r n) /\ final_presentation_origin_timestamp k o = Ok (t + grid k r n) /\
    presentation_origin_timerange k o = Ok (Span (t + grid k r n) (t + grid k r n) true) /\
    forall c, slower r -> t = grid k r c -> normalise_time k o (t + grid k r n) = Ok (grid k r (c + n))) /\
  ((o_class o = KCodedVideo -> getattr o $"temporal_offset" = Ok PNone /\ exists t r, picture_at o t r) ->
    presentation_origin_timestamp k o = attr as_time $"origin_timestamp" o /\ final_presentation_origin_timestamp k o = final_origin_timestamp k o /\
    presentation_origin_timerange k o = origin_timerange k o).
Proof.
  split.
  - intros n C O t r A K S. pose proof (final_video k o t r A) as F. pose proof A as (_ & T & R).
    assert (P : presentation_offset k o = Ok (Some (grid k r n))).
    { unfold presentation_offset. rewrite C, O, (attr_ok _ _ _ _ R). cbn [as_frac rbind as_count]. unfold of_count. cbn [fst snd]. replace ((fst r <=? 0) || (snd r <=? 0)) with false by (destruct S as (X & Y & _); lia). reflexivity. }
    unfold presentation_origin_timestamp, final_presentation_origin_timestamp, presentation_origin_timerange, origin_timerange. rewrite P, F, (attr_ok _ _ _ _ T). cbn [as_time rbind moved].
    split; [reflexivity|]. split; [reflexivity|]. unfold time_range. rewrite Z.ltb_irrefl, Bool.andb_false_r. cbn [orb]. rewrite Z.ltb_irrefl, Bool.andb_false_r. split; [reflexivity|].
    intros c S4 ->. destruct (video_range k o _ r A) as (_ & _ & V). destruct (V K S) as [M _]. unfold normalise_time. rewrite M. cbn [rbind]. unfold normal_time.
    replace ((fst r <=? 0) || (snd r <=? 0)) with false by (destruct S as (X & Y & _); lia). f_equal. unfold grid at 3. f_equal.
    destruct S4 as (R1 & R2 & S4). destruct (K (fst r) (snd r) R1 R2) as [K1 K2]. pose proof (K1 c) as B1. pose proof (K1 n) as B2. pose proof (K2 (grid k r c + grid k r n)) as B3.
    unfold grid in *. set (e := from_count k c _ _) in *. set (d := from_count k n _ _) in *. set (x := to_count _ _ _ _) in *. clearbody e d x. clear - B1 B2 B3 S4 R1 R2. destruct r as [a b]. cbn [fst snd] in *. unfold second in *.
    assert (H : - (1000000000 * b) < (x - (c + n)) * (1000000000 * b) < 1000000000 * b) by lia. set (q := x - (c + n)) in *. assert (q = 0) by nia. unfold q in *. lia.
  - intros H. assert (P : presentation_offset k o = Ok None).
    { unfold presentation_offset. destruct (o_class o) eqn:C; try reflexivity. destruct (H eq_refl) as (O & t & r & _ & _ & R). rewrite (attr_ok _ _ _ _ R), O. reflexivity. }
    unfold presentation_origin_timestamp, final_presentation_origin_timestamp, presentation_origin_timerange. rewrite P. cbn [rbind moved].
    split; [destruct (attr as_time _ o); reflexivity|]. split; [destruct (final_origin_timestamp k o); reflexivity|].
    unfold origin_timerange. destruct (attr as_time _ o) as [a|]; [|reflexivity]. cbn [rbind]. destruct (final_origin_timestamp k o) as [b|]; [|reflexivity]. cbn [rbind].
    f_equal. unfold time_range. destruct ((b <? a) || ((b =? a) && negb true)) eqn:E; [reflexivity|]. rewrite E. reflexivity.
Qed.

(** ** What the times depend on. *)
Lemma attr_same {A} (f : pv -> res A) n o o' : getattr o' n = getattr o n -> attr f n o' = attr f n o.
Proof. intros E. unfold attr. rewrite E. reflexivity. Qed.
Theorem times_depend k o o' : o_class o' = o_class o -> (forall n, In n time_names -> getattr o' n = getattr o n) -> same_times k o o'.
Proof.
  intros C H.
  assert (T : attr as_time $"origin_timestamp" o' = attr as_time $"origin_timestamp" o) by (apply attr_same, H; left; reflexivity).
  assert (S : attr as_count $"samples" o' = attr as_count $"samples" o) by (apply attr_same, H; right; left; reflexivity).
  assert (R : attr as_count $"sample_rate" o' = attr as_count $"sample_rate" o) by (apply attr_same, H; right; right; left; reflexivity).
  assert (Q : attr as_frac $"rate" o' = attr as_frac $"rate" o) by (apply attr_same, H; right; right; right; left; reflexivity).
  assert (P : getattr o' $"temporal_offset" = getattr o $"temporal_offset") by (apply H; do 4 right; left; reflexivity).
  assert (F : final_origin_timestamp k o' = final_origin_timestamp k o) by (unfold final_origin_timestamp; rewrite C, T, S, R; reflexivity).
  assert (O : presentation_offset k o' = presentation_offset k o) by (unfold presentation_offset; rewrite C, Q, P; reflexivity).
  assert (OR : origin_timerange k o' = origin_timerange k o) by (unfold origin_timerange; rewrite T, F; reflexivity).
  split; [exact F|exact OR|unfold media_rate; rewrite C, Q, R; reflexivity| | |];
    unfold presentation_origin_timestamp, final_presentation_origin_timestamp, presentation_origin_timerange; rewrite ?T, ?F, ?OR, O; reflexivity.
Qed.
