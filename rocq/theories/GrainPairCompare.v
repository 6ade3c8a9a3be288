From Coq Require Import String Lia ZifyBool ZifyNat.
From Verif Require Import Base BaseProofs PyValue PyValueProofs Json JsonProofs CogEnums GrainObj Difflib DifflibProofs Compare CompareSpec CompareProofs CompareTree CompareMain
  CompareTotal CompareSym CompareLaws GrainPair GrainPairSpec GrainPairProofs GrainPairMain.
Local Open Scope list_scope.

(** Equal grains compare as equal. *)
Lemma both_readable {A} (R : A -> A -> Prop) x y v : both_read R x y -> x = Ok v -> exists w, y = Ok w /\ R v w.
Proof. intros [(u & w & E & F & H)|(e & E & _)] K; [|congruence]. exists w. split; [exact F|]. assert (u = v) by congruence. subst. exact H. Qed.
Lemma twin_agree opts id d e : twin_dicts d e -> dicts_agree opts id d e.
Proof.
  intros T k H. destruct (dget k d) as [v|] eqn:E.
  - right. destruct (twins_get d e k v T E) as (w & W & Q). exists v, w. split; [reflexivity|]. split; [exact W|apply Q].
  - rewrite (twins_none d e k T E) in H. destruct H; congruence.
Qed.
Lemma lists_twins {A} opts (R : A -> A -> Prop) (el : str -> A -> A -> Prop) id l m : Forall2 R l m -> (forall i x y, R x y -> el i x y) -> lists_agree opts el id l m.
Proof.
  intros F H. split.
  - right. induction F; cbn [List.length]; congruence.
  - intros i K. right. revert i K. cut (forall i, (i < List.length l)%nat \/ (i < List.length m)%nat -> exists x y, nth_error l i = Some x /\ nth_error m i = Some y /\ R x y).
    { intros G i K. destruct (G i K) as (x & y & X & Y & Q). exists x, y. auto. }
    induction F as [|x y l m X F IH]; intros i K; cbn [List.length] in K; [lia|]. destruct i as [|i]; [exists x, y; auto|]. cbn [nth_error]. apply IH. lia.
Qed.
Lemma data_twins psnr w u k opts a b : no_matchers opts -> alike a b -> can_data psnr w u opts a b -> (forall x, get_data a = Ok (Some x) -> payload_agrees k x x) -> data_agree psnr w k opts a b.
Proof.
  intros [_ N] [_ (d & D & D')] _ P. right; right. split; [intros _ m; apply N|]. rewrite D, D'. destruct d as [x|]; [right|left; auto]. exists x, x. auto.
Qed.
Lemma attr_twins opts a b n : alike_meta a b -> o_class a = o_class b -> n <> $"length" -> readable a n -> agree opts a b n.
Proof.
  intros M C N [v V]. right. destruct (both_readable _ _ _ v (getattr_twins a b n M C N) V) as (w & W & Q). exists v, w. auto.
Qed.
Lemma as_number_twins u v : twins u v -> both_read eq (as_number u) (as_number v).
Proof. intros T. unfold as_number. rewrite (twins_as_q u v T). destruct (match as_q v with Some (z, 1) => Ok z | _ => Err EType end); [apply both_ok; reflexivity|apply both_err]. Qed.
Theorem equal_compared psnr opts a b r : no_matchers opts -> meta_ok a -> meta_ok b -> stored_ok a -> stored_ok b -> no_nan a -> grain_eq a (OGrain b) = Ok true -> o_class a = o_class b ->
  o_wait a = o_wait b \/ get_data a <> Ok None -> compare_grain psnr opts a b = Ok r -> r_equal r = true.
Proof.
  intros N Ma Mb Sa Sb NN Q C W H. apply (grain_agree psnr opts a b r Sa Sb H).
  apply (proj1 (equal_iff a b Ma Mb)) in Q. pose proof (alike_metas a b Ma Mb Q) as M. pose proof Q as [_ (pd & Da & Db)].
  assert (LL : getattr a $"length" = getattr b $"length") by (apply (length_twins a b pd Da Db); destruct W as [W|W]; [left; exact W|right; congruence]).
  assert (K : can_compare psnr opts a b) by (apply (grain_total psnr opts a b); exists r; exact H). destruct K as [P T L Y].
  specialize (P a (or_introl eq_refl)). specialize (T a (or_introl eq_refl)). destruct (L a (or_introl eq_refl)) as [l Hl].
  assert (TT : forall n, In n [$"origin_timestamp"; $"sync_timestamp"; $"creation_timestamp"] -> times_agree opts a b n).
  { intros n Hn. right. destruct (T n Hn) as [v Hv]. destruct (time_result a n v Hn Hv) as [t ->].
    assert (NL : n <> $"length") by (intros ->; cbn [In] in Hn; repeat destruct Hn as [Hn|Hn]; try discriminate Hn; destruct Hn).
    destruct (both_readable _ _ _ _ (getattr_twins a b n M C NL) Hv) as (w & Hw & E). destruct (time_result b n w Hn Hw) as [t' ->]. unfold equal_values in E. cbn [py_eq] in E. apply Z.eqb_eq in E. subst t'.
    exists t, t. split; auto. split; auto. apply expected_refl, N. }
  assert (BB : forall x, payload_agrees Bytes x x) by reflexivity.
  assert (AA : forall n, n <> $"length" -> readable a n -> agree opts a b n) by (intros n; apply attr_twins; assumption).
  constructor.
  - intros n Hn. apply AA; [intros ->; cbn [In] in Hn; repeat destruct Hn as [Hn|Hn]; try discriminate Hn; destruct Hn|]. apply P. cbn [In] in *. tauto.
  - left. right. assert (R : readable a $"length") by (apply P; cbn [In]; tauto). destruct R as [v V]. exists v, v. split; [exact V|]. split; [rewrite <- LL; exact V|].
    apply good_refl. exact (getattr_good a _ v Ma V).
  - intros n Hn. apply TT. cbn [In] in *. tauto.
  - intros _. apply TT. cbn [In]. tauto.
  - right. destruct (both_readable _ _ _ _ (labels_twins a b M) Hl) as (m & Hm & F). exists l, m. split; auto. split; auto. apply (lists_twins _ _ _ _ _ _ F). intros i x y. apply twin_agree.
  - intros t u E1 E2 E3. specialize (Y t u E1 E2 E3). destruct Y as [Y1 Y2 Y3 Y4 Y5 Y6]. constructor; intros X.
    + destruct (Y1 X a (or_introl eq_refl)) as (A & B & d & D). split; [apply AA; [discriminate|auto]|]. split; [apply AA; [discriminate|auto]|]. right.
      assert (EE : both_read (Forall2 twin_dicts) (rbind (event_entries a) (map_res as_dict)) (rbind (event_entries b) (map_res as_dict))).
      { apply (both_bind _ _ _ _ _ _ (entries_twins a b M)). intros x y F. apply (both_map _ _ _ _ _ F). exact twins_dict. }
      destruct (both_readable _ _ _ _ EE D) as (e & He & F). exists d, e. split; auto. split; auto. apply (lists_twins _ _ _ _ _ _ F). intros i x y. apply twin_agree.
    + destruct (Y2 X) as [A B]. split; [intros n Hn; apply AA; [intros ->; cbn [In] in Hn; repeat destruct Hn as [Hn|Hn]; try discriminate Hn; destruct Hn|auto]|]. intros f F1 F2.
      apply (data_twins _ _ _ _ _ _ _ N Q (B f F1 F2)). intros x Hx. destruct (NN f x F1 Hx) as [S D].
      destruct (audio_kind f) eqn:K; cbn [payload_agrees]; auto; (split; [reflexivity|]); intros i Hi; (split; [|split]); auto.
    + destruct (Y3 X) as [A B]. split; [intros n Hn; apply AA; [intros ->; cbn [In] in Hn; repeat destruct Hn as [Hn|Hn]; try discriminate Hn; destruct Hn|auto]|]. intros f F1 F2.
      apply (data_twins _ _ _ _ _ _ _ N Q (B f F1 F2)). auto.
    + destruct (Y4 X) as [A B]. split; [intros n Hn; apply AA; [intros ->; cbn [In] in Hn; repeat destruct Hn as [Hn|Hn]; try discriminate Hn; destruct Hn|auto]|]. intros f F1 F2.
      apply (data_twins _ _ _ _ _ _ _ N Q (B f F1 F2)). auto.
    + destruct (Y5 X) as [A B]. destruct (A a (or_introl eq_refl)) as (A1 & A2 & ol & A3). split; [|split].
      * intros n Hn. right. assert (NL : n <> $"length") by (intros ->; cbn [In] in Hn; repeat destruct Hn as [Hn|Hn]; try discriminate Hn; destruct Hn).
        assert (Z : readable a n \/ getattr a n = Err EAttr).
        { destruct Hn as [<-|Hn]; [left; exact A1|apply A2, Hn]. }
        pose proof (getattr_twins a b n M C NL) as G.
        destruct Z as [[v Hv]|Z]; [destruct (both_readable _ _ _ _ G Hv) as (w & Hw & E); exists v, w; auto|].
        exists PNone, PNone. split; [auto|]. split; [|reflexivity]. right. split; [|reflexivity]. destruct G as [(x & y & G & _)|(e & G & G')]; congruence.
      * right. assert (EE : both_read (Forall2 eq) (rbind (offsets a) (map_res as_number)) (rbind (offsets b) (map_res as_number))).
        { apply (both_bind _ _ _ _ _ _ (offsets_twins a b M)). intros x y F. apply (both_map _ _ _ _ _ F). exact as_number_twins. }
        destruct (both_readable _ _ _ _ EE A3) as (e & He & F). exists ol, e. split; auto. split; auto. apply (lists_twins _ _ _ _ _ _ F). intros i x y ->. apply expected_refl, N.
      * intros f F1 F2. apply (data_twins _ _ _ _ _ _ _ N Q (B f F1 F2)). auto.
    + apply (data_twins _ _ _ _ _ _ _ N Q (Y6 X)). auto.
Qed.
