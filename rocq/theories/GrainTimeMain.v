(** The times of grains that are assigned to, and of grains read back from a file. *)
From Coq Require Import String Lia ZifyBool ZifyNat.
From Verif Require Import Base BaseProofs JsonProofs PyValue PyValueProofs CogEnums GsfEncode PatternTime PatternSpec PatternTimeProofs GrainObj GrainSet GrainSetSpec GrainSetMain
  GsfPrim GsfDecode GsfFileSpec GsfEncState GsfEncSpec GsfEncFile GsfEncDecodeSpec GrainGsf GrainGsfSpec GrainGsfFileSpec GrainGsfFile GrainTime GrainTimeSpec GrainTimeProofs.
Local Open Scope list_scope.

(** ** Assignments. *)
Lemma time_name_known n o : In n time_names -> dget n (sorts (o_class o)) <> None \/ forall o', o_class o' = o_class o -> getattr o' n = Err EAttr.
Proof.
  intros I. unfold getattr. destruct (o_class o); repeat (destruct I as [<-|I]; [first [left; vm_compute; discriminate|right; intros o' ->; reflexivity]|]); destruct I.
Qed.
Lemma other_name n m : ~ In n time_names -> In m time_names -> same_attr n m = false.
Proof.
  intros N I. unfold same_attr. destruct (zlist_eqb n m) eqn:E; [apply zlist_eqb_eq in E; subst; destruct (N I)|]. cbn [orb].
  assert (X : forall p, In p two_names -> zlist_eqb m (fst p) = false /\ zlist_eqb m (snd p) = false).
  { intros p P. clear - I P. repeat (destruct I as [<-|I]; [repeat (destruct P as [<-|P]; [split; vm_compute; reflexivity|]); destruct P|]). destruct I. }
  unfold two_names in *. cbn [existsb]. repeat match goal with |- context [zlist_eqb m (fst ?p)] => destruct (X p) as [A B]; [cbn [In]; tauto|]; rewrite A, B; clear A B; rewrite ?Bool.andb_false_r; cbn [andb orb] end.
  reflexivity.
Qed.
Lemma last_other m l before : Forall (fun ne : str * effect => same_attr (fst ne) m = false) l -> last_reading m l before = before.
Proof.
  revert before. induction l as [|[n [e|r]] l IH]; intros before F; [reflexivity| |]; cbn [last_reading]; [apply IH; exact (Forall_inv_tail F)|].
  pose proof (Forall_inv F) as E. cbn [fst] in E. rewrite E. apply IH. exact (Forall_inv_tail F).
Qed.
Theorem times_left k l o o' rs : shaped o -> Forall (fun nv => exists so, dget (fst nv) (sorts (o_class o)) = Some so /\ sayable so (snd nv)) l ->
  Forall (fun nv => ~ In (fst nv) time_names) l -> set_all l o = (o', rs) -> same_times k o o'.
Proof.
  intros S F N E. destruct (assignments l o S F) as (effs & o1 & E1 & F2 & _ & U & G). rewrite E in E1. apply pair_equal_spec in E1 as [-> _].
  apply times_depend; [exact (ut_class _ _ U)|]. intros n I. destruct (time_name_known n o I) as [D|D].
  - rewrite (G n D). apply last_other. clear - F2 N I. induction F2 as [|nv ne l effs [A _] F2 IH]; constructor; [rewrite A; apply other_name; [exact (Forall_inv N)|exact I]|exact (IH (Forall_inv_tail N))].
  - rewrite (D o1 (ut_class _ _ U)), (D o eq_refl). reflexivity.
Qed.
Lemma time_range_moved a b i d : time_range (a + d) (b + d) i = moved_by d (time_range a b i).
Proof. unfold time_range. replace (b + d <? a + d) with (b <? a) by lia. replace (b + d =? a + d) with (b =? a) by lia. destruct ((b <? a) || ((b =? a) && negb i)); reflexivity. Qed.
Theorem times_moved k o o' t t' s : shaped o -> getattr o $"origin_timestamp" = Ok (PTime t) -> origin_timerange k o = Ok s -> set_attr $"origin_timestamp" (PTime t') o = Ok o' ->
  origin_timerange k o' = Ok (moved_by (t' - t) s) /\ media_rate o' = media_rate o /\ (exists b, final_origin_timestamp k o = Ok b /\ final_origin_timestamp k o' = Ok (b + (t' - t))) /\
  (forall p, presentation_origin_timestamp k o = Ok p -> presentation_origin_timestamp k o' = Ok (p + (t' - t))) /\
  (forall p, presentation_origin_timerange k o = Ok p -> presentation_origin_timerange k o' = Ok (moved_by (t' - t) p)).
Proof.
  intros S T R E. destruct (assignment o $"origin_timestamp" Moment (PTime t') S) as (eff & A & B); [destruct (o_class o); reflexivity|split; [constructor|exact I]|].
  inversion A; subst; try (destruct H as [[? H]|[? H]]; discriminate H); try (match goal with H : forall t, PTime t' <> PTime t |- _ => destruct (H t' eq_refl) end).
  destruct B as (o1 & E1 & _ & U & G). rewrite E in E1. apply Ok_eq in E1. subst o1. pose proof (ut_class _ _ U) as C.
  assert (H : forall n, In n time_names -> n <> $"origin_timestamp" -> getattr o' n = getattr o n).
  { intros n I N. destruct (time_name_known n o I) as [D|D]; [|rewrite (D o' C), (D o eq_refl); reflexivity]. rewrite (G n D).
    replace (same_attr $"origin_timestamp" n) with false; [reflexivity|]. symmetry. clear - I N. repeat (destruct I as [<-|I]; [first [destruct (N eq_refl)|vm_compute; reflexivity]|]). destruct I. }
  assert (T' : getattr o' $"origin_timestamp" = Ok (PTime t')) by (rewrite G; [reflexivity|destruct (o_class o); vm_compute; discriminate]).
  assert (S' : attr as_count $"samples" o' = attr as_count $"samples" o) by (apply attr_same, H; [right; left; reflexivity|discriminate]).
  assert (R' : attr as_count $"sample_rate" o' = attr as_count $"sample_rate" o) by (apply attr_same, H; [right; right; left; reflexivity|discriminate]).
  assert (Q : attr as_frac $"rate" o' = attr as_frac $"rate" o) by (apply attr_same, H; [right; right; right; left; reflexivity|discriminate]).
  assert (P : getattr o' $"temporal_offset" = getattr o $"temporal_offset") by (apply H; [do 4 right; left; reflexivity|discriminate]).
  assert (F : exists b, final_origin_timestamp k o = Ok b /\ final_origin_timestamp k o' = Ok (b + (t' - t))).
  { unfold origin_timerange in R. rewrite (attr_ok _ _ _ _ T) in R. cbn [as_time rbind] in R. destruct (final_origin_timestamp k o) as [b|] eqn:F; [|discriminate]. exists b. split; [reflexivity|]. revert F.
    unfold final_origin_timestamp. rewrite C, (attr_ok _ _ _ _ T), (attr_ok _ _ _ _ T'), S', R'. cbn [as_time rbind].
    destruct (o_class o); try (intros F; apply Ok_eq in F; f_equal; lia);
      (destruct (attr as_count $"samples" o); [|discriminate]; destruct (attr as_count $"sample_rate" o); [|discriminate]; cbn [rbind]; destruct (of_count k _ _); [|discriminate]; cbn [rbind]; intros F; apply Ok_eq in F; f_equal; lia). }
  assert (OR : origin_timerange k o' = Ok (moved_by (t' - t) s)).
  { destruct F as (b & F1 & F2). unfold origin_timerange in *. rewrite (attr_ok _ _ _ _ T), F1 in R. rewrite (attr_ok _ _ _ _ T'), F2. cbn [as_time rbind] in *. apply Ok_eq in R. subst s.
    replace t' with (t + (t' - t)) at 1 by lia. rewrite time_range_moved. reflexivity. }
  assert (O : presentation_offset k o' = presentation_offset k o) by (unfold presentation_offset; rewrite C, Q, P; reflexivity).
  split; [exact OR|]. split; [unfold media_rate; rewrite C, Q, R'; reflexivity|]. split; [exact F|]. split.
  - intros p. unfold presentation_origin_timestamp. rewrite O, (attr_ok _ _ _ _ T), (attr_ok _ _ _ _ T'). cbn [as_time rbind]. destruct (presentation_offset k o) as [[d|]|]; [| |discriminate]; cbn [rbind moved]; intros X; apply Ok_eq in X; f_equal; lia.
  - intros p. unfold presentation_origin_timerange. rewrite OR, R, O. cbn [rbind]. destruct (presentation_offset k o) as [d|]; [|discriminate]. cbn [rbind]. intros X. apply Ok_eq in X. subst p. f_equal.
    destruct s as [|a b i]; [reflexivity|]. cbn [moved_by]. rewrite <- time_range_moved. destruct d as [d|]; cbn [moved]; f_equal; lia.
Qed.

(** ** Files. *)
Theorem times_survive k now o o' : survives 9 now o o' -> plain_numbers o -> same_times k o o'.
Proof.
  intros S H. pose proof (sv_class _ _ _ _ S) as C. apply times_depend; [exact C|]. intros n I.
  assert (NUM : forall n, In n [$"samples"; $"sample_rate"] -> In n (number_names (o_class o)) \/ (getattr o' n = Err EAttr /\ getattr o n = Err EAttr)).
  { clear - C. intros n I. unfold getattr. rewrite C. destruct (o_class o); repeat (destruct I as [<-|I]; [first [left; vm_compute; tauto|right; split; reflexivity]|]); destruct I. }
  assert (N2 : forall n, In n [$"samples"; $"sample_rate"] -> getattr o' n = getattr o n).
  { intros m J. destruct (NUM m J) as [K|[K1 K2]]; [|congruence]. destruct (sv_numbers _ _ _ _ S m K) as (v & z & A & B & D). rewrite A, D.
    destruct (H m v) as [->|(y & -> & _)]; [cbn [In] in *; tauto|exact A|discriminate B|]. cbn [to_int] in B. apply Ok_eq in B. subst. reflexivity. }
  destruct I as [<-|[<-|[<-|[<-|[<-|[]]]]]].
  - destruct (sv_times _ _ _ _ S $"origin_timestamp" (or_introl eq_refl)) as (t & A & B). rewrite A, B. reflexivity.
  - apply N2. left. reflexivity.
  - apply N2. right. left. reflexivity.
  - apply (sv_same _ _ _ _ S). cbn [app In]. tauto.
  - destruct (o_class o) eqn:CC; try (unfold getattr; rewrite C, CC; reflexivity). destruct (sv_temporal _ _ _ _ S CC) as (v & w & A & B & D). rewrite A, B.
    destruct (H $"temporal_offset" v) as [->|(y & -> & Y)]; [cbn [In]; tauto|exact A| |]; cbn [temporal_after] in D; [rewrite D; reflexivity|]. destruct D as (z & D & ->). cbn [to_int] in D. apply Ok_eq in D. subst z.
    specialize (Y eq_refl). replace (y =? 2147483647) with false by lia. reflexivity.
Qed.

(** ** Ranges joined. *)
Lemma extended_closed s s' : closed s -> closed s' -> closed (extended s s') /\ forall t, within t (extended s s') <-> exists a b, (within a s \/ within a s') /\ (within b s \/ within b s') /\ a <= t <= b.
Proof.
  intros (a & b & -> & AB) (a' & b' & -> & AB'). cbn [extended]. replace (if b =? b' then true || true else if b <? b' then true else true) with true by (destruct (b =? b'), (b <? b'); reflexivity).
  split; [exists (Z.min a a'), (Z.max b b'); split; [reflexivity|lia]|]. intros t. cbn [within]. split; [intros X|intros (x & y & X & Y & Z); lia].
  exists (Z.min a a'), (Z.max b b'). split; [destruct (Z.min_spec a a') as [[_ ->]|[_ ->]]; [left|right]; lia|]. split; [destruct (Z.max_spec b b') as [[_ ->]|[_ ->]]; [right|left]; lia|lia].
Qed.
Theorem joined_smallest ss : forall s, closed s -> Forall closed ss -> closed (fold_left extended ss s) /\ smallest (fold_left extended ss s) (s :: ss).
Proof.
  induction ss as [|x ss IH]; intros s C F; cbn [fold_left].
  - split; [exact C|]. split; [intros x [<-|[]] t X; exact X|]. intros s' _ H t W. exact (H s (or_introl eq_refl) t W).
  - destruct (extended_closed s x C (Forall_inv F)) as [CE E]. destruct (IH _ CE (Forall_inv_tail F)) as [CF [A B]]. split; [exact CF|]. split.
    + intros y [<-|[<-|I]] t W; [| |exact (A y (or_intror I) t W)]; apply (A (extended s x) (or_introl eq_refl)); apply E; exists t, t; (split; [tauto|split; [tauto|lia]]).
    + intros s' C' H t W. apply (B s' C'); [|exact W]. intros y [<-|I] u U; [|exact (H y (or_intror (or_intror I)) u U)].
      apply E in U as (a & b & P & Q & L). destruct C' as (a' & b' & -> & _). cbn [within] in *.
      assert (a' <= a <= b') by (destruct P as [P|P]; [exact (H s (or_introl eq_refl) a P)|exact (H x (or_intror (or_introl eq_refl)) a P)]).
      assert (a' <= b <= b') by (destruct Q as [Q|Q]; [exact (H s (or_introl eq_refl) b Q)|exact (H x (or_intror (or_introl eq_refl)) b Q)]). lia.
Qed.

Theorem times_file k e c los lgs data cf strict fwd : reads_as e c lgs data -> e_major e = 9 -> all_writable los lgs -> at_once cf -> Forall (fun lo => plain_numbers (snd lo)) los ->
  exists s l, decode_file cf (mkFile data 0 strict fwd) = Ok (s, (l, s, Done)) /\
    Forall2 (fun lo i => i_local i = fst lo /\ forall now, exists o', item_object now data i = Ok o' /\ same_times k (snd lo) o') (asked (k_ids cf) los) l.
Proof.
  intros R M W A P. destruct (objects_back e c los lgs data cf strict fwd R W A) as (s & l & D & F). exists s, l. split; [exact D|]. rewrite M in F.
  assert (Q : Forall (fun lo => plain_numbers (snd lo)) (asked (k_ids cf) los)).
  { apply Forall_forall. intros x I. apply filter_In in I as [I _]. rewrite Forall_forall in P. exact (P x I). }
  clear - F Q. remember (asked (k_ids cf) los) as bos eqn:X. clear X. induction F as [|lo i bos l [L B] F IH]; constructor; [|exact (IH (Forall_inv_tail Q))]. split; [exact L|]. intros now. destruct (B now) as (o' & O & S & _). exists o'. split; [exact O|]. exact (times_survive k now _ _ S (Forall_inv Q)).
Qed.
