(** The table of a probed file. *)
From Coq Require Import String Lia ZifyBool ZifyNat.
From Verif Require Import Base BaseProofs GsfPrim GsfBlock GsfDecode CogEnums GsfEncode GsfSpec GsfFileSpec GsfEncState GsfEncSpec GsfEncDecodeSpec
  PyValue PyValueProofs JsonProofs GrainObj GrainSet GrainSetSpec GrainGsf GrainGsfSpec GrainGsfFileSpec GrainGsfFile PatternTime GrainTime GrainTimeProofs Tools ToolsSpec.
Local Open Scope list_scope.

Lemma row_put_same l p t : row l (put_row l p t) = Some p.
Proof.
  induction t as [|[a q] t IH]; cbn [put_row].
  - unfold row. cbn [find fst]. rewrite Z.eqb_refl. reflexivity.
  - destruct (Z.eqb_spec l a) as [->|N]; unfold row in *; cbn [find fst].
    + rewrite Z.eqb_refl. reflexivity.
    + destruct (Z.eqb_spec a l); [lia|]. exact IH.
Qed.
Lemma row_put_other l m p t : l <> m -> row m (put_row l p t) = row m t.
Proof.
  intros N. induction t as [|[a q] t IH]; cbn [put_row].
  - unfold row. cbn [find fst]. destruct (Z.eqb_spec l m); [lia|reflexivity].
  - destruct (Z.eqb_spec l a) as [->|N']; unfold row in *; cbn [find fst].
    + destruct (Z.eqb_spec a m); [lia|reflexivity].
    + destruct (Z.eqb_spec a m); [reflexivity|exact IH].
Qed.
Lemma put_keys l p t : row l t <> None -> map fst (put_row l p t) = map fst t.
Proof.
  induction t as [|[a q] t IH]; intros R; [destruct R; reflexivity|]. cbn [put_row]. destruct (Z.eqb_spec l a) as [->|N]; [reflexivity|].
  cbn [map fst]. f_equal. apply IH. unfold row in *. cbn [find fst] in R. destruct (Z.eqb_spec a l); [lia|exact R].
Qed.
Lemma new_row segs : forall l, row l (new_table segs) = option_map (fun s => mkPr s [] [] None) (last_with l segs).
Proof.
  unfold new_table, last_with. induction segs as [|s segs IH] using rev_ind; intros l; [reflexivity|].
  rewrite fold_left_app, rev_unit. cbn [fold_left find]. destruct (Z.eqb_spec (sg_local s) l) as [<-|N]; [apply row_put_same|]. rewrite row_put_other by exact N. apply IH.
Qed.
Lemma put_new l p t : row l t = None -> map fst (put_row l p t) = map fst t ++ [l].
Proof.
  induction t as [|[a q] t IH]; intros R; [reflexivity|]. unfold row in *. cbn [find fst put_row map] in *. destruct (Z.eqb_spec a l) as [->|N]; [discriminate|].
  destruct (Z.eqb_spec l a); [lia|]. cbn [map fst app]. f_equal. exact (IH R).
Qed.
Lemma row_key l t : row l t = None <-> ~ In l (map fst t).
Proof.
  unfold row. induction t as [|[a q] t IH]; [cbn; tauto|]. cbn [find fst map In]. destruct (Z.eqb_spec a l) as [->|N]; [split; [discriminate|intros H; destruct H; left; reflexivity]|]. tauto.
Qed.
Lemma put_nodup l p t : NoDup (map fst t) -> NoDup (map fst (put_row l p t)).
Proof.
  intros IH. destruct (row l t) eqn:R; [rewrite put_keys by congruence; exact IH|].
  rewrite put_new by exact R. apply row_key in R. revert R IH. induction (map fst t) as [|a k IHl]; intros R IH; cbn [app]; [constructor; [cbn; tauto|constructor]|].
  inversion IH as [|? ? A B]; subst. constructor; [|apply IHl; [intros X; apply R; right; exact X|exact B]].
  rewrite in_app_iff. intros [X|[X|[]]]; [exact (A X)|]. apply R. left. symmetry. exact X.
Qed.
Lemma new_nodup segs : NoDup (map fst (new_table segs)).
Proof.
  unfold new_table. induction segs as [|s segs IH] using rev_ind; [constructor|]. rewrite fold_left_app. cbn [fold_left]. exact (put_nodup _ _ _ IH).
Qed.

(** An item of a file and what is said of it. *)
Definition said_of (k : clock) (now : Z) (data : bytes) (i : item) (x : said) : Prop :=
  i_local i = said_id x /\ exists o a b c, item_object now data i = Ok o /\ dget $"grain" (o_meta o) = Some (said_meta x) /\ said_times x = (a, b, c) /\
    getattr o $"origin_timestamp" = Ok a /\ getattr o $"sync_timestamp" = Ok b /\ getattr o $"creation_timestamp" = Ok c /\ origin_timerange k o = Ok (said_range x).
Definition add_said (xs : list said) (p : probed) : probed :=
  mkPr (pr_segment p) (pr_grains p ++ map said_meta xs) (pr_times p ++ map said_times xs) (joined (match pr_range p with Some s => [s] | None => [] end ++ map said_range xs)).
Lemma add_none p : add_said [] p = p.
Proof. unfold add_said. cbn [map]. rewrite !app_nil_r. destruct p as [? ? ? [?|]]; reflexivity. Qed.
Lemma probe_rest k now data l xs : Forall2 (said_of k now data) l xs -> forall t,
  (Forall (fun x => row (said_id x) t <> None) xs -> exists t', probe_all k now data l t = Ok t' /\ map fst t' = map fst t /\
    forall n, row n t' = option_map (add_said (numbered said_id n xs)) (row n t)) /\
  (Exists (fun x => row (said_id x) t = None) xs -> probe_all k now data l t = Err EKey).
Proof.
  intros F. induction F as [|i x l xs (I & o & a & b & c & O & M & T & A & B & C & TR) F IH]; intros t.
  - split; [intros _; exists t; split; [reflexivity|split; [reflexivity|]]; intros n; destruct (row n t) as [p|]; [|reflexivity]; cbn [numbered filter option_map]; rewrite add_none; reflexivity|].
    intros E. inversion E.
  - cbn [probe_all]. rewrite O. cbn [rbind]. rewrite I. destruct (row (said_id x) t) as [p|] eqn:R.
    2: { split; [intros E; destruct (Forall_inv E R)|reflexivity]. }
    unfold ditem. rewrite M. cbn [rbind]. rewrite TR, A, B, C. cbn [rbind]. rewrite <- T.
    set (t1 := put_row _ _ t). destruct (IH t1) as [IH1 IH2].
    assert (RN : forall n, row n t1 = None <-> row n t = None).
    { intros n. destruct (Z.eq_dec (said_id x) n) as [<-|N]; unfold t1; [rewrite row_put_same, R; split; discriminate|]. rewrite row_put_other by exact N. reflexivity. }
    split.
    + intros E. destruct IH1 as (t' & P & K & Q). { apply Forall_inv_tail in E. apply Forall_forall. intros y IN Y. rewrite Forall_forall in E. apply RN in Y. exact (E y IN Y). }
      exists t'. split; [exact P|]. split; [rewrite K; apply put_keys; congruence|]. intros n. rewrite Q. cbn [numbered filter]. fold (numbered said_id n xs).
      destruct (Z.eqb_spec (said_id x) n) as [<-|N]; [unfold t1; rewrite row_put_same, R; cbn [option_map]; unfold add_said; cbn [pr_segment pr_grains pr_times pr_range map]; rewrite <- !app_assoc; destruct (pr_range p); reflexivity|].
      unfold t1. rewrite row_put_other by exact N. reflexivity.
    + intros E. apply IH2. apply Exists_cons in E as [E|E]; [congruence|]. apply Exists_exists in E as (y & IN & Y). apply Exists_exists. exists y. split; [exact IN|]. apply RN. exact Y.
Qed.
Lemma last_with_none n segs : last_with n segs = None <-> ~ In n (map sg_local segs).
Proof.
  unfold last_with. split.
  - intros F I. apply in_map_iff in I as (s & E & I). apply in_rev in I. pose proof (find_none _ _ F s I) as X. cbv beta in X. lia.
  - intros I. destruct (find _ _) as [s|] eqn:F; [|reflexivity]. apply find_some in F as [F E]. apply in_rev in F. destruct I. apply in_map_iff. exists s. split; [lia|exact F].
Qed.
Theorem probe_rows k now seekable f s l s' h xs : decode_file (reading None LoadDefer seekable) f = Ok (s, (l, s', Done)) -> s_head s = Some h -> Forall2 (said_of k now (f_data f)) l xs ->
  (Forall (fun x => In (said_id x) (map sg_local (hd_segs h))) xs -> exists t, probe k now seekable f = Ok t /\ NoDup (map fst t) /\
    forall n, row n t = match last_with n (hd_segs h) with
                        | None => None
                        | Some sg => Some (mkPr sg (map said_meta (numbered said_id n xs)) (map said_times (numbered said_id n xs)) (joined (map said_range (numbered said_id n xs)))) end) /\
  (~ Forall (fun x => In (said_id x) (map sg_local (hd_segs h))) xs -> probe k now seekable f = Err EKey).
Proof.
  intros D H F. unfold probe. rewrite D. cbn [rbind]. rewrite H. destruct (probe_rest k now (f_data f) l xs F (new_table (hd_segs h))) as [P Q].
  assert (R : forall n, row n (new_table (hd_segs h)) = None <-> ~ In n (map sg_local (hd_segs h))).
  { intros n. rewrite new_row, <- last_with_none. destruct (last_with n (hd_segs h)); cbn [option_map]; split; congruence. }
  split; intros E.
  - destruct P as (t & A & B & C). { apply Forall_forall. intros x I N. rewrite Forall_forall in E. apply R in N. exact (N (E x I)). }
    exists t. rewrite A. cbn [rbind ended]. split; [reflexivity|]. split; [rewrite B; apply new_nodup|]. intros n. rewrite C, new_row. destruct (last_with n (hd_segs h)); reflexivity.
  - rewrite Q; [reflexivity|]. apply Exists_Forall_neg in E; [|intros x; destruct (In_dec Z.eq_dec (said_id x) (map sg_local (hd_segs h))); [left|right]; assumption].
    apply Exists_exists in E as (x & I & N). apply Exists_exists. exists x. split; [exact I|]. apply R. exact N.
Qed.

(** ** Files made of objects. *)
Lemma meta_times o n t : In n [$"origin_timestamp"; $"sync_timestamp"] -> getattr o n = Ok (PTime t) -> exists v, dget $"grain" (o_meta o) = Some v.
Proof.
  intros I G. assert (E : rbind (field n o) to_time = Ok (PTime t)).
  { destruct I as [<-|[<-|[]]]; destruct o as [c m d w]; destruct c; exact G. }
  unfold field, ditem in E. destruct (dget $"grain" (o_meta o)) as [v|]; [exists v; reflexivity|discriminate].
Qed.
Lemma range_back k major now o o' : survives major now o o' -> timed o -> exists s, origin_timerange k o' = Ok s /\ (major <> 7 -> origin_timerange k o = Ok s).
Proof.
  intros S TI. pose proof (sv_class _ _ _ _ S) as C. destruct (sv_times _ _ _ _ S $"origin_timestamp" (or_introl eq_refl)) as (t & A & B).
  unfold origin_timerange, final_origin_timestamp. rewrite (attr_ok _ _ _ _ A), (attr_ok _ _ _ _ B), C. cbn [as_time rbind].
  assert (AU : o_class o = KAudio \/ o_class o = KCodedAudio -> exists n r, 0 < r /\ attr as_count $"samples" o = Ok n /\ attr as_count $"samples" o' = Ok n /\ attr as_count $"sample_rate" o = Ok r /\ attr as_count $"sample_rate" o' = Ok r).
  { intros K. destruct (TI K) as [(n & N) (r & R & P)]. exists n, r. split; [exact P|]. rewrite (attr_ok _ _ _ _ N), (attr_ok _ _ _ _ R).
    destruct (sv_numbers _ _ _ _ S $"samples") as (v & z & V1 & V2 & V3); [destruct K as [-> | ->]; cbn [number_names In]; tauto|]. destruct (sv_numbers _ _ _ _ S $"sample_rate") as (w & y & W1 & W2 & W3); [destruct K as [-> | ->]; cbn [number_names In]; tauto|].
    rewrite N in V1. apply Ok_eq in V1. subst v. cbn [to_int] in V2. apply Ok_eq in V2. subst z. rewrite R in W1. apply Ok_eq in W1. subst w. cbn [to_int] in W2. apply Ok_eq in W2. subst y.
    rewrite (attr_ok _ _ _ _ V3), (attr_ok _ _ _ _ W3). split; [reflexivity|]. split; [reflexivity|]. split; reflexivity. }
  destruct (o_class o); try (eexists; split; [reflexivity|intros M; replace (major =? 7) with false by lia; reflexivity]);
    (destruct AU as (n & r & P & S1 & S2 & R1 & R2); [tauto|]; rewrite S1, S2, R1, R2; cbn [rbind]; unfold of_count; cbn [fst snd]; replace ((r <=? 0) || (1 <=? 0)) with false by lia; cbn [rbind];
     eexists; split; [reflexivity|intros M; replace (major =? 7) with false by lia; reflexivity]).
Qed.
Lemma said_back k major now data lo i : i_local i = fst lo -> comes_back major data (snd lo) i -> timed (snd lo) ->
  exists x, said_of k now data i x /\ said_id x = fst lo /\ times_kept major now (snd lo) (said_times x) /\ (major <> 7 -> origin_timerange k (snd lo) = Ok (said_range x)).
Proof.
  intros L K TI. destruct (K now) as (o' & O & S & _).
  destruct (sv_times _ _ _ _ S $"origin_timestamp" (or_introl eq_refl)) as (a & A1 & A2). destruct (sv_times _ _ _ _ S $"sync_timestamp" (or_intror (or_introl eq_refl))) as (b & B1 & B2).
  pose proof (sv_creation _ _ _ _ S) as C. destruct (meta_times o' _ _ (or_introl eq_refl) A2) as (v & V). destruct (range_back k major now _ _ S TI) as (r & R1 & R2).
  exists (fst lo, v, (PTime (if major =? 7 then Z.abs a else a), PTime (if major =? 7 then Z.abs b else b), PTime now), r).
  split; [split; [exact L|]|split; [reflexivity|split; [exists a, b; split; [exact A1|split; [exact B1|reflexivity]]|exact R2]]].
  exists o'. do 3 eexists. split; [exact O|]. split; [exact V|]. split; [reflexivity|]. split; [exact A2|]. split; [exact B2|split; [exact C|exact R1]].
Qed.
Lemma asked_none los : asked None los = los.
Proof. unfold asked. induction los as [|lo los IH]; [reflexivity|]. cbn [filter in_ids] in *. rewrite IH. reflexivity. Qed.
Theorem probe_written k e c los lgs data now seekable strict fwd : reads_as e c lgs data -> all_writable los lgs ->
  Forall (fun lo => In (fst lo) (map st_local (e_segs e)) /\ timed (snd lo)) los ->
  exists t, probe k now seekable (mkFile data 0 strict fwd) = Ok t /\ NoDup (map fst t) /\
    (forall n, In n (map fst t) <-> In n (map st_local (e_segs e))) /\
    forall n p, row n t = Some p -> sg_local (pr_segment p) = n /\ List.length (pr_grains p) = List.length (pr_times p) /\
      Forall2 (fun lo x => times_kept (e_major e) now (snd lo) x) (numbered fst n los) (pr_times p) /\
      exists ss, pr_range p = joined ss /\ Forall2 (fun lo s => e_major e <> 7 -> origin_timerange k (snd lo) = Ok s) (numbered fst n los) ss.
Proof.
  intros R W IDS. pose proof R as R0. destruct R0 as (segms & SS & R0). set (kk := reading None LoadDefer seekable). destruct (R0 kk strict fwd) as (l0 & D0 & _). clear R0.
  destruct (objects_back e c los lgs data kk strict fwd R W) as (s & l & D & F). { right. split; [discriminate|right; reflexivity]. }
  change (k_ids kk) with (@None (list Z)) in F. rewrite asked_none in F. rewrite D in D0. apply Ok_eq in D0. apply pair_equal_spec in D0 as [S _].
  assert (Y : exists xs, Forall2 (said_of k now data) l xs /\ Forall2 (fun lo x => said_id x = fst lo /\ times_kept (e_major e) now (snd lo) (said_times x) /\ (e_major e <> 7 -> origin_timerange k (snd lo) = Ok (said_range x))) los xs).
  { clear - F IDS. revert IDS. induction F as [|lo i los l [H0 H] F IH]; intros IDS; [exists []; split; constructor|]. destruct (IH (Forall_inv_tail IDS)) as (xs & A & B). destruct (said_back k _ now _ _ _ H0 H (proj2 (Forall_inv IDS))) as (x & X1 & X2). exists (x :: xs). split; constructor; assumption. }
  destruct Y as (xs & F1 & F2). set (h := mkHead (e_id e) (e_created e) segms (e_tags e)) in *.
  assert (H : s_head s = Some h) by (rewrite S; reflexivity).
  assert (SL : map sg_local (hd_segs h) = map st_local (e_segs e)).
  { cbn [hd_segs h]. clear - SS. unfold with_counts in SS. revert segms SS. induction (e_segs e) as [|a l IH]; intros segms SS; inversion SS as [|? sg ? ? P Q]; subst; [reflexivity|].
    cbn [map]. f_equal; [|exact (IH _ Q)]. destruct P as (P & _). exact P. }
  destruct (probe_rows k now seekable (mkFile data 0 strict fwd) s l s h xs D H F1) as [P _].
  destruct P as (t & P1 & P2 & P3).
  { rewrite SL. clear - F2 IDS. revert IDS. induction F2 as [|lo x los xs [A _] F2 IH]; intros IDS; constructor; [rewrite A; exact (proj1 (Forall_inv IDS))|exact (IH (Forall_inv_tail IDS))]. }
  exists t. split; [exact P1|]. split; [exact P2|]. split.
  - intros n. rewrite <- SL. pose proof (row_key n t) as K. rewrite P3 in K. pose proof (last_with_none n (hd_segs h)) as LN. destruct (last_with n (hd_segs h)); split; intros I.
    + destruct (In_dec Z.eq_dec n (map sg_local (hd_segs h))) as [J|J]; [exact J|]. apply LN in J. discriminate.
    + destruct (In_dec Z.eq_dec n (map fst t)) as [J|J]; [exact J|]. apply K in J. discriminate.
    + destruct (proj1 K eq_refl I).
    + destruct (proj1 LN eq_refl I).
  - intros n p E. rewrite P3 in E. destruct (last_with n (hd_segs h)) as [sg|] eqn:L; [|discriminate]. injection E as <-. cbn [pr_segment pr_grains pr_times pr_range].
    split; [unfold last_with in L; apply find_some in L as [_ L]; cbv beta in L; lia|]. split; [rewrite !map_length; reflexivity|].
    split; [|exists (map said_range (numbered said_id n xs)); split; [reflexivity|]];
      clear - F2; unfold numbered; (induction F2 as [|lo x los xs (A & B & D) F2 IH]; [constructor|]); cbn [filter]; rewrite A; (destruct (fst lo =? n); [cbn [map]; constructor; assumption|exact IH]).
Qed.
