(** Comparisons report exactly what assignments have changed. *)
From Coq Require Import String Lia ZifyBool ZifyNat.
From Verif Require Import Base BaseProofs PyValue PyValueProofs CogEnums GrainObj Compare CompareSpec CompareProofs CompareTree CompareTotal CompareSym CompareLaws ReportSpec ReportMain GrainGsfSpec JsonProofs SavedProofs GrainSet ChangeSpec.
From Verif Require GrainSetSpec GrainSetProofs GrainSetMain.
Local Open Scope list_scope.

Lemma nothing_matched : no_matchers [].
Proof. split; intros p m []. Qed.
(** A grain compared with itself: nothing is reported. *)
Lemma nothing_reported psnr o n : meta_ok o -> stored_ok o -> no_nan o -> can_compare psnr [] o o -> ~ reported [] o o n.
Proof.
  intros M S N C R. destruct (proj2 (grain_total psnr [] o o) C) as [r H].
  pose proof (grain_refl psnr [] o r nothing_matched M S N H) as E. pose proof (proj1 (report_strict psnr o o r S S H) E n) as K.
  pose proof (K (proj2 (report psnr [] o o r n S S H) R)) as ->. destruct R as [R|R].
  - inversion R as [m Hm NS|m s t Hm G G' NE|d e _ _ _]; subst.
    + destruct Hm as [X|[X|[X|[X|[X|[X|[]]]]]]]; discriminate X.
    + rewrite G in G'. apply Ok_eq in G'. assert (s = t) by congruence. subst t. exact (NE (expected_refl [] _ s nothing_matched)).
  - inversion R as [t l m Hl B Hm NS| |m B Hm NS| | | |]; subst.
    + destruct Hl as [X|[X|[X|[X|[]]]]]; apply pair_equal_spec in X as [_ <-]; cbn [In] in Hm; intuition discriminate.
    + cbn [coded_names In] in Hm. intuition discriminate.
Qed.
Lemma expected_none id d : expected [] id d <-> d = 0.
Proof. split; [intros [_ H]; apply H; intros m []|intros ->; split; [intros m []|reflexivity]]. Qed.
(** Where both can be read. *)
Lemma same_read a b n : readable a n -> readable b n -> same_attr a b n <-> same_or_none a b n.
Proof.
  intros [x Hx] [y Hy]. split; intros (v & w & A & B & E).
  - exists v, w. auto.
  - exists x, y. destruct A as [A|[A _]]; [|congruence]. destruct B as [B|[B _]]; [|congruence]. split; [exact Hx|]. split; [exact Hy|]. congruence.
Qed.
Lemma same_time a b n s t : getattr a n = Ok (PTime s) -> getattr b n = Ok (PTime t) -> same_or_none a b n <-> s = t.
Proof.
  intros A B. rewrite <- same_read by (eexists; eassumption). split.
  - intros (x & y & X & Y & E). rewrite A in X. rewrite B in Y. apply Ok_eq in X. apply Ok_eq in Y. subst x y. cbn [py_eq] in E. lia.
  - intros ->. exists (PTime t), (PTime t). split; [exact A|]. split; [exact B|]. cbn [py_eq]. lia.
Qed.

Lemma data_same (o o' : gobj) : GrainSetSpec.untouched o o' -> o_class o <> KEvent -> get_data o' = get_data o.
Proof. intros U N. exact (proj1 (GrainSetMain.length_stays o o' U N)). Qed.
Lemma still (o o' : gobj) n : still_readable o o' -> In n (compared (o_class o)) -> readable o n -> readable o' n.
Proof. intros K I [v Hv]. destruct (getattr o' n) as [w|e] eqn:E; [exists w; exact E|]. rewrite (K n e I E) in Hv. discriminate Hv. Qed.
Lemma stored_stays o o' : GrainSetSpec.untouched o o' -> stored_ok o -> stored_ok o'.
Proof. intros U S x Hx. apply S. destruct (GrainSetSpec.ut_data _ _ U) as [D _]. congruence. Qed.
Lemma changed_can psnr o o' : GrainSetSpec.untouched o o' -> of_own_type o -> of_own_type o' -> still_readable o o' -> can_compare psnr [] o o -> can_compare psnr [] o o'.
Proof.
  intros U OT OT' K [P T L Y KL KE].
  assert (C0 : forall l n, In n l -> forallb (fun n => existsb (zlist_eqb n) (compared (o_class o))) l = true -> In n (compared (o_class o))).
  { intros l n Hn H. rewrite forallb_forall in H. apply H in Hn. apply existsb_exists in Hn as (m & Hm & E). apply zlist_eqb_eq in E. subst m. exact Hm. }
  assert (CD : forall w u, o_class o <> KEvent -> can_data psnr w u [] o o -> can_data psnr w u [] o o').
  { intros w u N [_ C2]. split; [intros _ [m []]|]. intros NM x [->| ->]; [exact (C2 NM o (or_introl eq_refl))|]. rewrite (data_same o o' U N). exact (C2 NM o (or_introl eq_refl)). }
  assert (CF : forall w name u, o_class o <> KEvent -> can_if_format psnr w name u [] o o -> can_if_format psnr w name u [] o o').
  { intros w name u N C f F1 F2. apply CD; [exact N|]. exact (C f F1 F1). }
  assert (Y0 : can_type psnr (PStr (own_type (o_class o))) [] o o).
  { apply (Y _ _ OT OT). cbn [py_eq]. apply zlist_eqb_refl. }
  constructor.
  - intros x [->| ->] n Hn; [exact (P o (or_introl eq_refl) n Hn)|]. apply (still o); [exact K| |exact (P o (or_introl eq_refl) n Hn)].
    eapply C0; [exact Hn|]. destruct (o_class o); reflexivity.
  - intros x [->| ->] n Hn; [exact (T o (or_introl eq_refl) n Hn)|]. apply (still o); [exact K| |exact (T o (or_introl eq_refl) n Hn)].
    eapply C0; [exact Hn|]. destruct (o_class o); reflexivity.
  - intros x [->| ->]; [exact (L o (or_introl eq_refl))|]. rewrite (GrainSetSpec.ut_labels _ _ U). exact (L o (or_introl eq_refl)).
  - intros t u A B _. unfold of_own_type in OT. rewrite OT in A. apply Ok_eq in A. subst t. destruct Y0 as [Y1 Y2 Y3 Y4 Y5 Y6]. constructor; intros X.
    + assert (CC : o_class o = KEvent) by exact (own_inj _ KEvent _ X eq_refl). destruct (Y1 X o (or_introl eq_refl)) as (R1 & R2 & d & R3).
      intros x [->| ->]; [split; [exact R1|]; split; [exact R2|]; exists d; exact R3|].
      split; [apply (still o); [exact K|rewrite CC; apply in_by; reflexivity|exact R1]|]. split; [apply (still o); [exact K|rewrite CC; apply in_by; reflexivity|exact R2]|].
      exists d. rewrite (GrainSetSpec.ut_entries _ _ U CC). exact R3.
    + assert (CC : o_class o = KAudio) by exact (own_inj _ KAudio _ X eq_refl). destruct (Y2 X) as [R F]. split; [|apply CF; [congruence|exact F]].
      intros x [->| ->] n Hn; [exact (R o (or_introl eq_refl) n Hn)|]. apply (still o); [exact K| |exact (R o (or_introl eq_refl) n Hn)]. eapply C0; [exact Hn|]. rewrite CC. reflexivity.
    + assert (CC : o_class o = KCodedAudio) by exact (own_inj _ KCodedAudio _ X eq_refl). destruct (Y3 X) as [R F]. split; [|apply CF; [congruence|exact F]].
      intros x [->| ->] n Hn; [exact (R o (or_introl eq_refl) n Hn)|]. apply (still o); [exact K| |exact (R o (or_introl eq_refl) n Hn)]. eapply C0; [exact Hn|]. rewrite CC. reflexivity.
    + assert (CC : o_class o = KVideo) by exact (own_inj _ KVideo _ X eq_refl). destruct (Y4 X) as [R F]. split; [|apply CF; [congruence|exact F]].
      intros x [->| ->] n Hn; [exact (R o (or_introl eq_refl) n Hn)|]. apply (still o); [exact K| |exact (R o (or_introl eq_refl) n Hn)]. eapply C0; [exact Hn|]. rewrite CC. reflexivity.
    + assert (CC : o_class o = KCodedVideo) by exact (own_inj _ KCodedVideo _ X eq_refl). destruct (Y5 X) as [R F]. split; [|apply CF; [congruence|exact F]].
      destruct (R o (or_introl eq_refl)) as (R1 & R2 & d & R3). intros x [->| ->]; [split; [exact R1|]; split; [exact R2|]; exists d; exact R3|].
      split; [apply (still o); [exact K|rewrite CC; apply in_by; reflexivity|exact R1]|]. split; [|exists d; rewrite (GrainSetSpec.ut_offsets _ _ U CC); exact R3].
      intros n Hn. assert (In n (compared (o_class o))) as I by (eapply C0; [exact Hn|]; rewrite CC; reflexivity).
      destruct (getattr o' n) as [w|e] eqn:E; [left; exists w; exact E|right]. pose proof (K n e I E) as E'. destruct (R2 n Hn) as [[v Hv]|E2]; congruence.
    + apply CD; [|exact (Y6 X)]. intros CC. apply X. rewrite CC. apply in_map. apply in_by. reflexivity.
  - intros la lb i d e k A B. rewrite (GrainSetSpec.ut_labels _ _ U) in B. exact (KL la lb i d e k A B).
  - intros A B la lb i d e k X Z. assert (CC : o_class o = KEvent) by (unfold has_type in A; unfold of_own_type in OT; rewrite OT in A; apply Ok_eq in A; exact (own_inj _ KEvent _ A eq_refl)).
    unfold entries in Z. rewrite (GrainSetSpec.ut_entries _ _ U CC) in Z. exact (KE A A la lb i d e k X Z).
Qed.
Lemma in_compared c l n : In n l -> forallb (fun n => existsb (zlist_eqb n) (compared c)) l = true -> In n (compared c).
Proof. intros Hn H. rewrite forallb_forall in H. apply in_by. apply H, Hn. Qed.
(** What a comparison reads of a grain of its own type. *)
Lemma all_readable psnr o n : of_own_type o -> can_compare psnr [] o o -> In n (compared (o_class o)) -> readable o n \/ (o_class o = KCodedVideo /\ getattr o n = Err EAttr).
Proof.
  intros OT [P T _ Y _ _] I. specialize (P o (or_introl eq_refl)). specialize (T o (or_introl eq_refl)).
  assert (Y0 : can_type psnr (PStr (own_type (o_class o))) [] o o) by (apply (Y _ _ OT OT); cbn [py_eq]; apply zlist_eqb_refl). clear Y.
  unfold compared in I. apply in_app_or in I as [I|I].
  { left. destruct (in_dec (list_eq_dec Z.eq_dec) n time_names) as [H|H]; [exact (T n H)|]. apply P. apply (in_rest n _ time_names _ I H). reflexivity. }
  destruct Y0 as [Y1 Y2 Y3 Y4 Y5 _]. destruct (o_class o).
  - destruct I.
  - left. exact (proj1 (Y4 eq_refl) o (or_introl eq_refl) n I).
  - destruct (proj1 (Y5 eq_refl) o (or_introl eq_refl)) as (R1 & R2 & _). destruct I as [<-|I]; [left; exact R1|]. destruct (R2 n I) as [R|R]; [left; exact R|right; auto].
  - left. exact (proj1 (Y2 eq_refl) o (or_introl eq_refl) n I).
  - left. exact (proj1 (Y3 eq_refl) o (or_introl eq_refl) n I).
  - destruct (Y1 eq_refl o (or_introl eq_refl)) as (R1 & R2 & _). left. destruct I as [<-|[<-|[]]]; assumption.
Qed.
Lemma plain_readable psnr o o' n : of_own_type o -> can_compare psnr [] o o -> still_readable o o' -> In n (compared (o_class o)) ->
  o_class o <> KCodedVideo \/ In n plain_names \/ In n time_names -> readable o n /\ readable o' n.
Proof.
  intros OT C K I H. assert (R : readable o n).
  { destruct H as [H|[H|H]]; [|exact (cc_plain _ _ _ _ C o (or_introl eq_refl) n H)|exact (cc_times _ _ _ _ C o (or_introl eq_refl) n H)].
    destruct (all_readable psnr o n OT C I) as [R|[R _]]; [exact R|congruence]. }
  split; [exact R|]. exact (still o o' n K I R).
Qed.
Lemma both_own o o' t : of_own_type o -> both_type o o' t -> t = own_type (o_class o).
Proof. intros OT [A _]. unfold has_type in A. unfold of_own_type in OT. rewrite OT in A. apply Ok_eq in A. congruence. Qed.
Theorem told_iff psnr o o' n : GrainSetSpec.untouched o o' -> of_own_type o -> of_own_type o' -> still_readable o o' ->
  meta_ok o -> stored_ok o -> no_nan o -> can_compare psnr [] o o -> reported [] o o' n <-> told o o' n.
Proof.
  intros U OT OT' K M S N C. pose proof (fun n => nothing_reported psnr o n M S N C) as NR.
  assert (CL : o_class o' = o_class o) by exact (GrainSetSpec.ut_class _ _ U).
  assert (B0 : forall t, both_type o o' t <-> t = own_type (o_class o)).
  { intros t. split; [apply both_own, OT|]. intros ->. split; [exact OT|]. unfold has_type. unfold of_own_type in OT'. rewrite OT', CL. reflexivity. }
  assert (B1 : both_type o o (own_type (o_class o))) by (split; exact OT).
  assert (SP : forall k, o_class o <> KEvent -> same_payload k [] o o -> same_payload k [] o o').
  { intros k NE. unfold same_payload. rewrite (data_same o o' U NE). auto. }
  assert (NS : forall n, In n (compared (o_class o)) -> (o_class o <> KCodedVideo \/ In n plain_names \/ In n time_names) -> ~ same_attr o o' n <-> ~ same_or_none o o' n).
  { intros m I H. destruct (plain_readable psnr o o' m OT C K I H) as [R R']. rewrite (same_read o o' m R R'). reflexivity. }
  assert (TM : forall m, In m time_names -> exists s t, getattr o m = Ok (PTime s) /\ getattr o' m = Ok (PTime t)).
  { intros m Hm. destruct (plain_readable psnr o o' m OT C K) as [[x Hx] [y Hy]].
    - apply (in_compared _ time_names); [exact Hm|destruct (o_class o); reflexivity].
    - auto.
    - destruct (time_result o m x Hm Hx) as [s ->]. destruct (time_result o' m y Hm Hy) as [t ->]. exists s, t; auto. }
  split.
  - intros [R|R].
    + inversion R as [m Hm D|m s t Hm G G' NE|d e L L' D]; subst.
      * assert (I : In n (compared (o_class o))) by (apply (in_compared _ plain_names); [exact Hm|destruct (o_class o); reflexivity]).
        apply told_attr; [exact I|]. apply NS; auto.
      * apply told_attr; [apply (in_compared _ time_names); [exact Hm|destruct (o_class o); reflexivity]|]. rewrite (same_time o o' n s t G G'). intros ->. apply NE. apply expected_none. lia.
      * exfalso. apply (NR $"timelabels"). left. rewrite (GrainSetSpec.ut_labels _ _ U) in L'. eapply rep_labels; [exact L|exact L'|exact D].
    + inversion R as [t l m Hl B Hm D|d e B E1 E2 D|m B Hm D|x y B E1 E2 D|I|t name w k f Ht B F F' W D|t G G' NK D]; subst.
      * apply B0 in B. subst t.
        assert (X : o_class o <> KCodedVideo /\ In n (compared (o_class o))).
        { destruct Hl as [E|[E|[E|[E|[]]]]]; apply pair_equal_spec in E as [E <-].
          - assert (CC : o_class o = KEvent) by (apply (own_inj _ KEvent $"event"); [rewrite E|]; reflexivity). rewrite CC. split; [discriminate|]. eapply in_compared; [exact Hm|reflexivity].
          - assert (CC : o_class o = KAudio) by (apply (own_inj _ KAudio $"audio"); [rewrite E|]; reflexivity). rewrite CC. split; [discriminate|]. eapply in_compared; [exact Hm|reflexivity].
          - assert (CC : o_class o = KCodedAudio) by (apply (own_inj _ KCodedAudio $"coded_audio"); [rewrite E|]; reflexivity). rewrite CC. split; [discriminate|]. eapply in_compared; [exact Hm|reflexivity].
          - assert (CC : o_class o = KVideo) by (apply (own_inj _ KVideo $"video"); [rewrite E|]; reflexivity). rewrite CC. split; [discriminate|]. eapply in_compared; [exact Hm|reflexivity]. }
        destruct X as [X1 X2]. apply told_attr; [exact X2|]. apply NS; auto.
      * exfalso. apply B0 in B. assert (CC : o_class o = KEvent) by (apply (own_inj _ KEvent $"event"); [rewrite B|]; reflexivity).
        apply (NR $"event_data"). right. rewrite (GrainSetSpec.ut_entries _ _ U CC) in E2. rewrite <- B in B1. exact (rep_events [] o o d e B1 E1 E2 D).
      * apply B0 in B. assert (CC : o_class o = KCodedVideo) by (apply (own_inj _ KCodedVideo $"coded_video"); [rewrite B|]; reflexivity).
        apply told_attr; [|exact D]. rewrite CC. eapply in_compared; [exact Hm|reflexivity].
      * exfalso. apply B0 in B. assert (CC : o_class o = KCodedVideo) by (apply (own_inj _ KCodedVideo $"coded_video"); [rewrite B|]; reflexivity).
        apply (NR $"unit_offsets"). right. rewrite (GrainSetSpec.ut_offsets _ _ U CC) in E2. rewrite <- B in B1. exact (rep_offsets [] o o x y B1 E1 E2 D).
      * destruct I as [D|t name w k f g Ht B F G D].
        -- exfalso. apply D. exists (PStr (own_type (o_class o))), (PStr (own_type (o_class o))). split; [exact OT|]. split; [unfold of_own_type in OT'; rewrite CL in OT'; exact OT'|]. cbn [py_eq]. apply zlist_eqb_refl.
        -- apply (told_data o o' name f g); auto. destruct Ht as [E|[E|[E|[E|[]]]]]; apply pair_equal_spec in E as [_ E]; apply pair_equal_spec in E as [E _]; apply pair_equal_spec in E as [<- _]; apply in_by; reflexivity.
      * exfalso. apply B0 in B. apply (NR $"data"). right. rewrite <- B in B1. apply (rep_data [] o o t name w k f Ht B1 F F W). intros Q. apply D. apply SP; [|exact Q].
        intros CC. rewrite CC in B. subst t. destruct Ht as [E|[E|[E|[E|[]]]]]; apply pair_equal_spec in E as [E _]; vm_compute in E; discriminate E.
      * exfalso. apply (NR $"data"). right. apply (rep_unknown [] o o t G); [|exact NK|].
        -- exists t, t. split; [exact G|]. split; [exact G|]. unfold of_own_type in OT. rewrite OT in G. apply Ok_eq in G. subst t. cbn [py_eq]. apply zlist_eqb_refl.
        -- intros Q. apply D. apply SP; [|exact Q]. intros CC. apply NK. unfold of_own_type in OT. rewrite OT in G. apply Ok_eq in G. subst t. rewrite CC. apply in_map. apply in_by. reflexivity.
  - intros [m I D|m f g I F G D].
    + destruct (in_dec (list_eq_dec Z.eq_dec) m plain_names) as [Hm|Hm]; [left; apply rep_plain; [exact Hm|]; apply NS; auto|].
      destruct (in_dec (list_eq_dec Z.eq_dec) m time_names) as [Ht|Ht].
      { destruct (TM m Ht) as (s & t & A & B). left. apply (rep_time [] o o' m s t Ht A B). rewrite expected_none. rewrite (same_time o o' m s t A B) in D. lia. }
      right. assert (B2 : both_type o o' (own_type (o_class o))) by (apply B0; reflexivity).
      pose proof (NS m I) as NS'. unfold compared in I. apply in_app_or in I as [I|I].
      { exfalso. apply Ht. apply (in_rest m _ plain_names _ I Hm). reflexivity. }
      destruct (o_class o).
      * destruct I.
      * apply (rep_own [] o o' _ _ m (or_intror (or_intror (or_intror (or_introl eq_refl)))) B2 I). apply NS'; [left; discriminate|exact D].
      * exact (rep_coded [] o o' m B2 I D).
      * apply (rep_own [] o o' _ _ m (or_intror (or_introl eq_refl)) B2 I). apply NS'; [left; discriminate|exact D].
      * apply (rep_own [] o o' _ _ m (or_intror (or_intror (or_introl eq_refl))) B2 I). apply NS'; [left; discriminate|exact D].
      * apply (rep_own [] o o' _ _ m (or_introl eq_refl) B2 I). apply NS'; [left; discriminate|exact D].
    + right. apply rep_incomparable. assert (B2 : both_type o o' (own_type (o_class o))) by (apply B0; reflexivity).
      assert (X : exists w k, In (own_type (o_class o), (m, w, k)) formats).
      { unfold getattr in F. destruct (o_class o), I as [<-|[<-|[]]]; try discriminate F.
        - exists true, (fun _ => Bytes). right; right; left; reflexivity.
        - exists false, (fun _ => Bytes). right; right; right; left; reflexivity.
        - exists true, audio_kind. left; reflexivity.
        - exists false, (fun _ => Bytes). right; left; reflexivity. }
      destruct X as (w & k & X). exact (inc_format o o' _ m w k f g X B2 F G D).
Qed.

(** ** Histories of assignments. *)
Theorem changes psnr l o o' outs : GrainSetSpec.shaped o -> of_own_type o -> meta_ok o -> stored_ok o -> no_nan o -> can_compare psnr [] o o ->
  Forall (fun nv => exists so, dget (fst nv) (GrainSetSpec.sorts (o_class o)) = Some so /\ GrainSetSpec.sayable so (snd nv)) l ->
  set_all l o = (o', outs) -> of_own_type o' -> still_readable o o' ->
  exists r, compare_grain psnr [] o o' = Ok r /\ (forall n, In n (failing_attributes r) <-> told o o' n) /\
    (r_equal r = true <-> forall n, told o o' n -> n = $"creation_timestamp").
Proof.
  intros SH OT M S N C F E OT' K. destruct (GrainSetMain.assignments l o SH F) as (effs & o1 & E1 & _ & _ & U & _). rewrite E in E1.
  apply pair_equal_spec in E1 as [<- _]. destruct (proj2 (grain_total psnr [] o o') (changed_can psnr o o' U OT OT' K C)) as [r H]. exists r. split; [exact H|].
  pose proof (stored_stays o o' U S) as S'.
  assert (R : forall n, In n (failing_attributes r) <-> told o o' n) by (intros n; rewrite (report psnr [] o o' r n S S' H); exact (told_iff psnr o o' n U OT OT' K M S N C)).
  split; [exact R|]. rewrite (report_strict psnr o o' r S S' H). split; intros X n Hn; apply X, R, Hn.
Qed.

(** ** One assignment. *)
Lemma two_names_read o n m : GrainSetSpec.same_attr n m = true -> dget n (GrainSetSpec.sorts (o_class o)) <> None -> dget m (GrainSetSpec.sorts (o_class o)) <> None -> getattr o m = getattr o n.
Proof.
  intros H Hn Hm. unfold GrainSetSpec.same_attr in H. apply orb_true_iff in H as [H|H]; [apply zlist_eqb_eq in H; subst m; reflexivity|].
  apply existsb_exists in H as (p & Hp & H). apply orb_true_iff in H as [H|H]; apply andb_true_iff in H as [A B]; apply zlist_eqb_eq in A; apply zlist_eqb_eq in B; subst n m;
    unfold getattr; destruct (o_class o), Hp as [<-|[<-|[<-|[<-|[]]]]]; cbn [fst snd] in *; first [reflexivity|exfalso; apply Hn; reflexivity|exfalso; apply Hm; reflexivity].
Qed.
Lemma format_result o n v : In n format_names -> getattr o n = Ok v -> exists f, v = PInt f.
Proof. intros [<-|[<-|[]]] H; [exact (frame_format_result o v H)|exact (audio_format_result o v H)]. Qed.
Lemma compared_sorts c n : In n (compared c) -> n = $"length" \/ dget n (GrainSetSpec.sorts c) <> None.
Proof.
  intros H. assert (F : forallb (fun n => zlist_eqb n $"length" || match dget n (GrainSetSpec.sorts c) with Some _ => true | None => false end) (compared c) = true) by (destruct c; reflexivity).
  rewrite forallb_forall in F. apply F in H. apply orb_true_iff in H as [H|H]; [left; apply zlist_eqb_eq, H|right]. destruct (dget n (GrainSetSpec.sorts c)); congruence.
Qed.
Lemma same_attr_self n : GrainSetSpec.same_attr n n = true.
Proof. unfold GrainSetSpec.same_attr. rewrite zlist_eqb_refl. reflexivity. Qed.
Lemma not_length c n so m : dget n (GrainSetSpec.sorts c) = Some so -> m = $"length" -> GrainSetSpec.same_attr n m = false.
Proof.
  intros H ->. assert (F : forallb (fun p => negb (GrainSetSpec.same_attr (fst p) $"length")) (GrainSetSpec.sorts c) = true) by (destruct c; reflexivity).
  rewrite forallb_forall in F. apply dget_in in H. apply F in H. cbn [fst] in H. destruct (GrainSetSpec.same_attr n $"length"); [discriminate H|reflexivity].
Qed.
Lemma only_type n : n <> $"grain_type" -> GrainSetSpec.same_attr n $"grain_type" = false.
Proof. intros H. unfold GrainSetSpec.same_attr. apply zlist_eqb_neq in H. rewrite H. cbn [existsb GrainSetSpec.two_names fst snd]. rewrite !(andb_comm (zlist_eqb n _)). reflexivity. Qed.
Theorem change psnr o n so v o' x w : GrainSetSpec.shaped o -> of_own_type o -> meta_ok o -> stored_ok o -> no_nan o -> can_compare psnr [] o o ->
  dget n (GrainSetSpec.sorts (o_class o)) = Some so -> GrainSetSpec.sayable so v -> o_class o <> KEvent -> n <> $"grain_type" ->
  set_attr n v o = Ok o' -> getattr o n = Ok x -> getattr o' n = Ok w ->
  exists r, compare_grain psnr [] o o' = Ok r /\
    (forall m, In m (failing_attributes r) <-> py_eq x w = false /\
       ((In m (compared (o_class o)) /\ GrainSetSpec.same_attr n m = true) \/
        (m = $"data" /\ exists f, In f (compared (o_class o)) /\ In f format_names /\ GrainSetSpec.same_attr n f = true))) /\
    (r_equal r = true <-> py_eq x w = true \/ n = $"creation_timestamp" \/ In n overlooked).
Proof.
  intros SH OT M S N C D SA NE NT E X W. destruct (GrainSetMain.assignment o n so v SH D SA) as (eff & _ & A). destruct eff as [e|r0]; [congruence|].
  destruct A as (o1 & E1 & _ & U & G). rewrite E in E1. apply Ok_eq in E1. subst o1.
  assert (R0 : r0 = Ok w). { rewrite <- W. rewrite (G n); [rewrite same_attr_self; reflexivity|congruence]. } subst r0.
  destruct (GrainSetMain.length_stays o o' U NE) as [_ LS].
  assert (G' : forall m, In m (compared (o_class o)) -> getattr o' m = if GrainSetSpec.same_attr n m then Ok w else getattr o m).
  { intros m Hm. destruct (compared_sorts _ m Hm) as [L|L]; [|exact (G m L)]. rewrite (not_length _ n so m D L). subst m. exact LS. }
  assert (XX : forall m, In m (compared (o_class o)) -> GrainSetSpec.same_attr n m = true -> getattr o m = Ok x).
  { intros m Hm Y. rewrite <- X. apply two_names_read; [exact Y|congruence|]. destruct (compared_sorts _ m Hm) as [L|L]; [|exact L]. rewrite (not_length _ n so m D L) in Y. discriminate Y. }
  assert (OT' : of_own_type o').
  { unfold of_own_type. rewrite (GrainSetSpec.ut_class _ _ U), G'; [rewrite (only_type n NT); exact OT|]. apply in_or_app. left. left. reflexivity. }
  assert (K : still_readable o o').
  { intros m e Hm Y. rewrite (G' m Hm) in Y. destruct (GrainSetSpec.same_attr n m); [discriminate Y|exact Y]. }
  destruct (proj2 (grain_total psnr [] o o') (changed_can psnr o o' U OT OT' K C)) as [r H]. exists r. split; [exact H|].
  pose proof (stored_stays o o' U S) as S'.
  assert (T : forall m, told o o' m <-> py_eq x w = false /\
       ((In m (compared (o_class o)) /\ GrainSetSpec.same_attr n m = true) \/
        (m = $"data" /\ exists f, In f (compared (o_class o)) /\ In f format_names /\ GrainSetSpec.same_attr n f = true))).
  { assert (FC : forall m f, In m format_names -> getattr o m = Ok (PInt f) -> In m (compared (o_class o))).
    { intros m f Hm F. unfold getattr in F. destruct (o_class o), Hm as [<-|[<-|[]]]; try discriminate F; apply in_by; reflexivity. }
    intros m. split.
    - intros [k Hk NS|k f g Hk F G0 Q].
      + destruct (GrainSetSpec.same_attr n k) eqn:Y.
        * pose proof (G' k Hk) as G1. rewrite Y in G1. pose proof (XX k Hk Y) as G2. split; [|left; auto]. destruct (py_eq x w) eqn:Z; [|reflexivity]. exfalso. apply NS. exists x, w. auto.
        * exfalso. apply NS. pose proof (G' k Hk) as G1. rewrite Y in G1. destruct (all_readable psnr o k OT C Hk) as [[u Hu]|[_ Hu]].
          -- exists u, u. rewrite G1. split; [auto|]. split; [auto|]. apply good_refl. exact (getattr_good o k u M Hu).
          -- exists PNone, PNone. rewrite G1. auto.
      + pose proof (FC k f Hk F) as I. pose proof (G' k I) as G1. destruct (GrainSetSpec.same_attr n k) eqn:Y; [|congruence].
        pose proof (XX k I Y) as G2. split; [|right; split; [reflexivity|exists k; auto]]. rewrite F in G2. apply Ok_eq in G2. subst x. rewrite G0 in G1. apply Ok_eq in G1. subst w. cbn [py_eq as_q]. lia.
    - intros [Z [[Hm Y]|[-> (f & Hf & Hf' & Y)]]].
      + apply told_attr; [exact Hm|]. intros (u & u' & A & B & EQ). pose proof (G' m Hm) as G1. rewrite Y in G1. pose proof (XX m Hm Y) as G2.
        destruct A as [A|[A _]]; [|congruence]. destruct B as [B|[B _]]; [|congruence]. congruence.
      + pose proof (G' f Hf) as G1. rewrite Y in G1. pose proof (XX f Hf Y) as G2. destruct (format_result o f x Hf' G2) as [a ->]. destruct (format_result o' f w Hf' G1) as [b ->].
        apply (told_data o o' f a b Hf' G2 G1). intros ->. cbn [py_eq as_q] in Z. lia. }
  split.
  - intros m. rewrite (report psnr [] o o' r m S S' H), (told_iff psnr o o' m U OT OT' K M S N C). exact (T m).
  - rewrite (report_strict psnr o o' r S S' H). assert (R : forall m, In m (failing_attributes r) <-> told o o' m) by (intros m; rewrite (report psnr [] o o' r m S S' H); exact (told_iff psnr o o' m U OT OT' K M S N C)).
    assert (Q : forallb (fun p => existsb (zlist_eqb (fst p)) overlooked || zlist_eqb (fst p) $"creation_timestamp" ||
        existsb (fun m => GrainSetSpec.same_attr (fst p) m && negb (zlist_eqb m $"creation_timestamp")) (compared (o_class o))) (GrainSetSpec.sorts (o_class o)) = true) by (destruct (o_class o); reflexivity).
    rewrite forallb_forall in Q. specialize (Q _ (dget_in _ _ _ D)). cbn [fst] in Q. split.
    + intros Y. destruct (py_eq x w) eqn:Z; [left; reflexivity|right]. apply orb_true_iff in Q as [Q|Q]; [apply orb_true_iff in Q as [Q|Q]; [right; apply in_by, Q|left; apply zlist_eqb_eq, Q]|].
      exfalso. apply existsb_exists in Q as (m & Hm & Q). apply andb_true_iff in Q as [Q1 Q2].
      assert (B : m = $"creation_timestamp") by (apply Y, R, T; auto). subst m. vm_compute in Q2. discriminate Q2.
    + intros Y m Hm. apply R, T in Hm as [Z Hm]. destruct Y as [Y|[->|Y]]; [congruence| |].
      * destruct Hm as [[_ Hm]|[_ (f & _ & Hf & Hm)]]; [|destruct Hf as [<-|[<-|[]]]; vm_compute in Hm; discriminate Hm].
        unfold GrainSetSpec.same_attr in Hm. apply orb_true_iff in Hm as [Hm|Hm]; [symmetry; apply zlist_eqb_eq, Hm|].
        exfalso. apply existsb_exists in Hm as (p & Hp & Hm). destruct Hp as [<-|[<-|[<-|[<-|[]]]]]; cbn [fst snd] in Hm; rewrite !(andb_comm (zlist_eqb m _)) in Hm; vm_compute in Hm; discriminate Hm.
      * exfalso. assert (L : forallb (fun n => negb (existsb (GrainSetSpec.same_attr n) (compared (o_class o))) && negb (existsb (GrainSetSpec.same_attr n) format_names)) overlooked = true) by (destruct (o_class o); reflexivity).
        rewrite forallb_forall in L. apply L in Y. apply andb_true_iff in Y as [Y1 Y2]. apply negb_true_iff in Y1. apply negb_true_iff in Y2.
        destruct Hm as [[I Hm]|[_ (f & _ & Hf & Hm)]].
        -- assert (existsb (GrainSetSpec.same_attr n) (compared (o_class o)) = true) by (apply existsb_exists; exists m; auto). congruence.
        -- assert (existsb (GrainSetSpec.same_attr n) format_names = true) by (apply existsb_exists; exists f; auto). congruence.
Qed.

(** ** The type. *)
Theorem retyped psnr o v o' : GrainSetSpec.shaped o -> of_own_type o -> meta_ok o -> stored_ok o -> no_nan o -> can_compare psnr [] o o -> pv_ok v -> o_class o <> KEvent ->
  set_attr $"grain_type" v o = Ok o' -> py_eq (PStr (own_type (o_class o))) v = false ->
  exists r, compare_grain psnr [] o o' = Ok r /\ r_equal r = false /\ forall m, In m (failing_attributes r) <-> m = $"grain_type" \/ m = $"data".
Proof.
  intros SH OT M S N C V NE E D.
  destruct (GrainSetMain.assignment o $"grain_type" GrainSetSpec.Anything v SH) as (eff & AC & A); [destruct (o_class o); reflexivity|split; [exact V|exact I]|].
  inversion AC; subst eff. destruct A as (o1 & E1 & _ & U & G). rewrite E in E1. apply Ok_eq in E1. subst o1.
  destruct (GrainSetMain.length_stays o o' U NE) as [_ LS].
  assert (GT : getattr o' $"grain_type" = Ok v) by (rewrite G; [reflexivity|destruct (o_class o); discriminate]).
  assert (G' : forall m, In m (compared (o_class o)) -> m <> $"grain_type" -> getattr o' m = getattr o m).
  { intros m Hm Hn. destruct (compared_sorts _ m Hm) as [->|L]; [exact LS|]. rewrite (G m L).
    assert (Y : GrainSetSpec.same_attr $"grain_type" m = false); [|rewrite Y; reflexivity].
    unfold GrainSetSpec.same_attr. destruct (zlist_eqb $"grain_type" m) eqn:Y; [apply zlist_eqb_eq in Y; congruence|].
    cbn [existsb GrainSetSpec.two_names fst snd orb]. rewrite !(andb_comm (zlist_eqb m _)). reflexivity. }
  assert (NS : ~ same_attr o o' $"grain_type").
  { intros (x & y & X & Y & Q). unfold of_own_type in OT. rewrite OT in X. apply Ok_eq in X. subst x. rewrite GT in Y. apply Ok_eq in Y. subst y. congruence. }
  assert (NB : forall t, ~ both_type o o' t) by (intros t B; exact (NS (both_same _ _ _ B))).
  assert (CC : can_compare psnr [] o o').
  { destruct C as [P T L Y KL KE]. constructor.
    - intros x [->| ->] n Hn; [exact (P o (or_introl eq_refl) n Hn)|]. destruct (zlist_eqb n $"grain_type") eqn:Z; [apply zlist_eqb_eq in Z; subst n; exists v; exact GT|].
      apply zlist_eqb_neq in Z. destruct (P o (or_introl eq_refl) n Hn) as [u Hu]. exists u. rewrite G'; [exact Hu| |exact Z]. eapply in_compared; [exact Hn|destruct (o_class o); reflexivity].
    - intros x [->| ->] n Hn; [exact (T o (or_introl eq_refl) n Hn)|]. destruct (T o (or_introl eq_refl) n Hn) as [u Hu]. exists u. rewrite G'; [exact Hu| |].
      + eapply in_compared; [exact Hn|destruct (o_class o); reflexivity].
      + intros ->. destruct Hn as [Q|[Q|[Q|[]]]]; discriminate Q.
    - intros x [->| ->]; [exact (L o (or_introl eq_refl))|]. rewrite (GrainSetSpec.ut_labels _ _ U). exact (L o (or_introl eq_refl)).
    - intros t u X Z Q. exfalso. apply NS. exists t, u. auto.
    - intros la lb i d e k X Z. rewrite (GrainSetSpec.ut_labels _ _ U) in Z. exact (KL la lb i d e k X Z).
    - intros X Z. exfalso. exact (NB $"event" (conj X Z)). }
  destruct (proj2 (grain_total psnr [] o o') CC) as [r H]. exists r. split; [exact H|]. pose proof (stored_stays o o' U S) as S'.
  assert (R : forall m, In m (failing_attributes r) <-> m = $"grain_type" \/ m = $"data").
  { intros m. rewrite (report psnr [] o o' r m S S' H). split.
    - assert (SR : forall k, In k (plain_names ++ time_names) -> k <> $"grain_type" -> getattr o' k = getattr o k /\ readable o k).
      { intros k Hk Z. split; [apply G'; [|exact Z]; eapply in_compared; [exact Hk|destruct (o_class o); reflexivity]|].
        apply in_app_or in Hk as [Hk|Hk]; [exact (cc_plain _ _ _ _ C o (or_introl eq_refl) k Hk)|exact (cc_times _ _ _ _ C o (or_introl eq_refl) k Hk)]. }
      intros [Q|Q].
      + inversion Q as [k Hk Z|k s t Hk X X' Z|d e L L' Z]; subst.
        * left. destruct (list_eq_dec Z.eq_dec m $"grain_type") as [Y|Y]; [exact Y|exfalso]. apply Z. destruct (SR m (in_or_app _ _ _ (or_introl Hk)) Y) as [A1 [u A2]].
          exists u, u. rewrite A1. split; [exact A2|]. split; [exact A2|]. apply good_refl. exact (getattr_good o m u M A2).
        * exfalso. destruct (SR m (in_or_app _ _ _ (or_intror Hk))) as [A1 _]; [intros ->; destruct Hk as [Y|[Y|[Y|[]]]]; discriminate Y|].
          rewrite A1, X in X'. apply Ok_eq in X'. assert (s = t) by congruence. subst t. apply Z. apply expected_none. lia.
        * exfalso. apply (nothing_reported psnr o $"timelabels" M S N C). left. rewrite (GrainSetSpec.ut_labels _ _ U) in L'. eapply rep_labels; [exact L|exact L'|exact Z].
      + right. inversion Q as [t l k Hl B Hk Z|d e B E1 E2 Z|k B Hk Z|x y B E1 E2 Z|J|t name w k f Ht B F F' W Z|t X X' NK Z]; subst; try (destruct (NB _ B)); try reflexivity.
    - intros [->| ->]; [left; apply rep_plain; [apply in_by; reflexivity|exact NS]|right; apply rep_incomparable; exact (inc_type _ _ NS)]. }
  split; [|exact R]. destruct (r_equal r) eqn:Q; [|reflexivity]. exfalso. pose proof (proj1 (report_strict psnr o o' r S S' H) Q $"grain_type" (proj2 (R _) (or_introl eq_refl))) as Z. discriminate Z.
Qed.
