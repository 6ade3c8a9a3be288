From Coq Require Import String Lia ZifyBool ZifyNat.
From Verif Require Import Base BaseProofs PyValue PyValueProofs Json JsonProofs CogEnums GrainObj Difflib DifflibProofs StrFormat Compare CompareSpec StrFormatProofs CompareProofs CompareTree CompareMain.
Local Open Scope list_scope.

Lemma equalities_ok get opts names a b : (exists l, equalities get opts names a b = Ok l) <->
  forall o, o = a \/ o = b -> forall n, In n names -> exists v, get o n = Ok v.
Proof.
  induction names as [|n names IH]; cbn [equalities].
  - split; [intros _ o _ n []|intros _; exists []; reflexivity].
  - split.
    + intros [l H]. apply rbind_ok in H as (x & Hx & H). apply rbind_ok in H as (y & Hy & H). apply rbind_ok in H as (r & Hr & H).
      assert (R : exists l, equalities get opts names a b = Ok l) by (exists r; exact Hr). rewrite IH in R.
      intros o Ho m [<-|Hm]; [|apply R; auto]. destruct Ho as [-> | ->]; [exists x|exists y]; auto.
    + intros H. destruct (H a (or_introl eq_refl) n (or_introl eq_refl)) as [x Hx]. destruct (H b (or_intror eq_refl) n (or_introl eq_refl)) as [y Hy].
      destruct (proj2 IH) as [r Hr]; [intros o Ho m Hm; apply H; [exact Ho|right; exact Hm]|]. rewrite Hx, Hy, Hr. cbn [rbind]. eexists; reflexivity.
Qed.
Lemma time_result o n v : In n [$"origin_timestamp"; $"sync_timestamp"; $"creation_timestamp"] -> getattr o n = Ok v -> exists t, v = PTime t.
Proof.
  intros Hn H. destruct o as [c m d w]. assert (T : exists k, rbind (field k (mkO c m d w)) to_time = Ok v).
  { destruct Hn as [<-|[<-|[<-|[]]]]; [exists $"origin_timestamp"|exists $"sync_timestamp"|exists $"creation_timestamp"]; destruct c; exact H. }
  destruct T as [k T]. apply rbind_ok in T as (x & _ & T). destruct x; cbn [to_time is_text] in T; try discriminate T. apply Ok_eq in T. eexists; symmetry; exact T.
Qed.
Lemma instants_ok opts names a b : (forall n, In n names -> In n [$"origin_timestamp"; $"sync_timestamp"; $"creation_timestamp"]) ->
  (exists l, instants opts names a b = Ok l) <-> forall o, o = a \/ o = b -> forall n, In n names -> readable o n.
Proof.
  induction names as [|n names IH]; intros S; cbn [instants].
  - split; [intros _ o _ n []|intros _; exists []; reflexivity].
  - specialize (IH (fun m Hm => S m (or_intror Hm))). split.
    + intros [l H]. apply rbind_ok in H as (x & Hx & H). apply rbind_ok in H as (y & Hy & H). apply rbind_ok in H as (r & Hr & H).
      apply rbind_ok in Hx as (u & Hu & _). apply rbind_ok in Hy as (v & Hv & _).
      assert (R : exists l, instants opts names a b = Ok l) by (exists r; exact Hr). rewrite IH in R.
      intros o Ho m [<-|Hm]; [|apply R; auto]. destruct Ho as [-> | ->]; [exists u|exists v]; auto.
    + intros H. destruct (H a (or_introl eq_refl) n (or_introl eq_refl)) as [x Hx]. destruct (H b (or_intror eq_refl) n (or_introl eq_refl)) as [y Hy].
      destruct (proj2 IH) as [r Hr]; [intros o Ho m Hm; apply H; [exact Ho|right; exact Hm]|].
      destruct (time_result a n x (S n (or_introl eq_refl)) Hx) as [s ->]. destruct (time_result b n y (S n (or_introl eq_refl)) Hy) as [t ->].
      rewrite Hx, Hy. cbn [rbind as_instant]. rewrite Hr. cbn [rbind]. eexists; reflexivity.
Qed.
Lemma elements_ok {A} id opts (cmp : str -> ckey -> A -> A -> res cres) : forall a b n, (exists l, elements id opts cmp n a b = Ok l) <->
  forall i x y, nth_error a i = Some x -> nth_error b i = Some y -> exists c, cmp (at_index id (n + Z.of_nat i)) (KIndex (n + Z.of_nat i)) x y = Ok c.
Proof.
  induction a as [|x a IH]; intros [|y b] n; try (split; [intros _ [|i] u v P Q; try discriminate P; discriminate Q|intros _; eexists; reflexivity]). cbn [elements].
  split.
  - intros [l H]. apply rbind_ok in H as (c & Hc & H). apply rbind_ok in H as (r & Hr & _). intros [|i] u v P Q; cbn [nth_error] in P, Q.
    + replace (n + Z.of_nat 0) with n by lia. exists c. congruence.
    + replace (n + Z.of_nat (S i)) with (n + 1 + Z.of_nat i) by lia. apply (proj1 (IH b (n + 1)) (ex_intro _ r Hr) i u v P Q).
  - intros T. destruct (T 0%nat x y eq_refl eq_refl) as [c Hc]. replace (n + Z.of_nat 0) with n in Hc by lia. rewrite Hc. cbn [rbind].
    destruct (proj2 (IH b (n + 1))) as [l ->]; [|cbn [rbind]; eexists; reflexivity].
    intros i u v P Q. replace (n + 1 + Z.of_nat i) with (n + Z.of_nat (S i)) by lia. apply (T (S i) u v P Q).
Qed.
Lemma ordered_ok {A} cmp id opts at_ (a b : list A) : (exists r, ordered cmp id opts at_ a b = Ok r) <->
  forall i x y, nth_error a i = Some x -> nth_error b i = Some y -> exists c, cmp (at_index id (Z.of_nat i)) (KIndex (Z.of_nat i)) x y = Ok c.
Proof.
  unfold ordered. pose proof (elements_ok id opts cmp a b 0) as E. cbn [Z.add] in E. split.
  - intros [r H]. apply rbind_ok in H as (l & Hl & _). intros i x y P Q. apply (proj1 E (ex_intro _ l Hl) i x y P Q).
  - intros H. destruct (proj2 E H) as [l ->]. cbn [rbind]. eexists; reflexivity.
Qed.
(** A mapping is compared if all of its keys can be written into an identifier. *)
Lemma map_res_ok {A B} (f : A -> res B) l : (exists r, map_res f l = Ok r) <-> forall x, In x l -> exists y, f x = Ok y.
Proof.
  induction l as [|x l IH]; cbn [map_res]; [split; [intros _ x []|intros _; eexists; reflexivity]|]. split.
  - intros [r H]. apply rbind_ok in H as (y & Hy & H). apply rbind_ok in H as (r' & Hr & _). intros z [<-|Hz]; [exists y; exact Hy|].
    apply (proj1 IH (ex_intro _ r' Hr) z Hz).
  - intros H. destruct (H x (or_introl eq_refl)) as [y ->]. cbn [rbind]. destruct (proj2 IH) as [r ->]; [intros z Hz; apply H; right; exact Hz|].
    cbn [rbind]. eexists; reflexivity.
Qed.
Lemma mapping_ids id opts x y : forall i, In i (map r_id (flat_map (both id opts x y) x ++ flat_map (missing id opts y) x ++ flat_map (missing id opts x) y)) <->
  exists k, i = at_key id k /\ In k (map fst x ++ map fst y).
Proof.
  intros i. split.
  - rewrite !map_app, !in_app_iff, !in_map_iff. intros [(c & <- & H)|[(c & <- & H)|(c & <- & H)]]; apply in_flat_map in H as ((k & v) & Hk & H).
    + unfold both in H. cbn [fst] in H. destruct (dget k x); [|destruct H]. destruct (dget k y); [|destruct H]. destruct H as [<-|[]]. exists k. split; [reflexivity|].
      apply in_app_iff. left. apply in_map_iff. exists (k, v); auto.
    + unfold missing in H. cbn [fst] in H. destruct (dget k y); [destruct H|]. destruct H as [<-|[]]. exists k. split; [reflexivity|].
      apply in_app_iff. left. apply in_map_iff. exists (k, v); auto.
    + unfold missing in H. cbn [fst] in H. destruct (dget k x); [destruct H|]. destruct H as [<-|[]]. exists k. split; [reflexivity|].
      apply in_app_iff. right. apply in_map_iff. exists (k, v); auto.
  - intros (k & -> & H). rewrite !map_app, !in_app_iff, !in_map_iff. destruct (dget k x) as [v|] eqn:Ex.
    + destruct (dget k y) as [w|] eqn:Ey.
      * left. exists (equality (at_key id k) opts None (Some (KName k)) v w). split; [reflexivity|]. apply in_flat_map. exists (k, v). split; [apply dget_in, Ex|].
        unfold both. cbn [fst]. rewrite Ex, Ey. left; reflexivity.
      * right. left. exists (failing (at_key id k) opts None (Some (KName k))). split; [reflexivity|]. apply in_flat_map. exists (k, v). split; [apply dget_in, Ex|].
        unfold missing. cbn [fst]. rewrite Ey. left; reflexivity.
    + right. right. apply in_app_iff in H as [H|H].
      * exfalso. apply dget_none in Ex. auto.
      * apply in_map_iff in H as ((k' & v) & E & H). cbn [fst] in E. subst k'. exists (failing (at_key id k) opts None (Some (KName k))). split; [reflexivity|].
        apply in_flat_map. exists (k, v). split; [exact H|]. unfold missing. cbn [fst]. rewrite Ex. left; reflexivity.
Qed.
Lemma mapping_ok opts n i k x y : no_brace n -> (exists c, mapping opts (at_index (path n) i) k x y = Ok c) <-> forall s, In s (map fst x ++ map fst y) -> spelled s.
Proof.
  intros N. unfold mapping. cbv zeta. set (l := flat_map _ x ++ _). assert (I : forall j, In j (map r_id l) <-> exists k, j = at_key (at_index (path n) i) k /\ In k (map fst x ++ map fst y)) by apply mapping_ids.
  clearbody l. split.
  - intros [c H]. apply rbind_ok in H as (r & H & _). pose proof (proj1 (map_res_ok _ l) (ex_intro _ r H)) as M. intros s Hs.
    apply (key_format n i s $"a" N). assert (J : In (at_key (at_index (path n) i) s) (map r_id l)) by (apply I; exists s; auto).
    apply in_map_iff in J as (c' & <- & J). apply (M c' J).
  - intros H. destruct (proj2 (map_res_ok (fun c => id_format (r_id c) $"a") l)) as [r ->]; [|cbn [rbind]; eexists; reflexivity].
    intros c Hc. assert (J : In (r_id c) (map r_id l)) by (apply in_map, Hc). apply I in J as (s & -> & J). apply (key_format n i s $"a" N). apply H, J.
Qed.
Lemma mappings_ok opts n at_ a b : no_brace n -> (exists r, ordered (mapping opts) (path n) opts at_ a b = Ok r) <->
  forall i d e s, nth_error a i = Some d -> nth_error b i = Some e -> In s (map fst d ++ map fst e) -> spelled s.
Proof.
  intros N. rewrite ordered_ok. split.
  - intros H i d e s P Q. apply (mapping_ok opts n (Z.of_nat i) (KIndex (Z.of_nat i)) d e N). apply (H i d e P Q).
  - intros H i d e P Q. apply mapping_ok; [exact N|]. intros s. apply (H i d e s P Q).
Qed.
Definition unit_of (c : code) : Z := match c with CS24 => 1 | _ => code_size c end.
Lemma unpack_ok c x : (exists w, unpack c x = Ok w) <-> zlen x mod unit_of c = 0.
Proof.
  destruct c; cbn [unpack unit_of code_size]; try (destruct (zlen x mod _ =? 0) eqn:E; split; [intros _; lia|intros _; eexists; reflexivity|intros [w H]; discriminate H|lia]).
  split; [intros _; apply Z.mod_1_r|intros _; eexists; reflexivity].
Qed.
Lemma data_child_ok psnr w c opts a b : (exists r, data_child psnr w c opts a b = Ok r) <-> can_data psnr w (unit_of c) opts a b.
Proof.
  unfold data_child, can_data. fold data_path. destruct (w && _) eqn:E.
  - apply andb_true_iff in E as [-> E].
    assert (N : exists m, In (OPsnr data_path m) opts).
    { destruct (psnr_matchers data_path opts) as [|m ms] eqn:F; [discriminate E|]. exists m. apply matchers_in. rewrite F. left; reflexivity. }
    unfold psnr_result. destruct (excluded_by opts data_path) eqn:X.
    + apply excluded_waived in X. split; [intros _|intros _; eexists; reflexivity]. split; auto. intros F. destruct N as [m Hm]. destruct (F eq_refl m Hm).
    + assert (NW : ~ waived opts data_path) by (rewrite <- excluded_waived, X; discriminate). split.
      * intros [r H]. apply rbind_ok in H as (p & Hp & _). split; [intros _ _; right; exists p; exact Hp|]. intros F. destruct N as [m Hm]. destruct (F eq_refl m Hm).
      * intros [H _]. destruct (H eq_refl N) as [W|[p Hp]]; [destruct (NW W)|]. rewrite Hp. cbn [rbind]. eexists; reflexivity.
  - assert (N : w = true -> forall m, ~ In (OPsnr data_path m) opts).
    { intros -> m Hm. apply matchers_in in Hm. cbn [andb] in E. destruct (psnr_matchers data_path opts); [destruct Hm|discriminate E]. }
    split.
    + intros [r H]. split; [intros F [m Hm]; destruct (N F m Hm)|]. intros _.
      apply rbind_ok in H as (x & Hx & H). apply rbind_ok in H as (y & Hy & H). unfold data_equality in H.
      apply rbind_ok in H as (u & Hu & H). apply rbind_ok in H as (v & Hv & H).
      intros o [-> | ->]; [exists x|exists y]; (split; [assumption|]); intros z ->; cbn [unpack_opt] in *.
      * apply rbind_ok in Hu as (wz & Hwz & _). apply unpack_ok. exists wz; exact Hwz.
      * apply rbind_ok in Hv as (wz & Hwz & _). apply unpack_ok. exists wz; exact Hwz.
    + intros [_ H]. destruct (H N a (or_introl eq_refl)) as (x & Hx & Ux). destruct (H N b (or_intror eq_refl)) as (y & Hy & Uy).
      rewrite Hx, Hy. cbn [rbind]. unfold data_equality.
      assert (X : exists u, unpack_opt c x = Ok u).
      { destruct x as [x|]; cbn [unpack_opt]; [|eexists; reflexivity]. destruct (proj2 (unpack_ok c x) (Ux x eq_refl)) as [u ->]. eexists; reflexivity. }
      assert (Y : exists u, unpack_opt c y = Ok u).
      { destruct y as [y|]; cbn [unpack_opt]; [|eexists; reflexivity]. destruct (proj2 (unpack_ok c y) (Uy y eq_refl)) as [u ->]. eexists; reflexivity. }
      destruct X as [u ->]. destruct Y as [v ->]. cbn [rbind]. eexists; reflexivity.
Qed.
Lemma format_then_ok psnr w code_for name opts a b : (forall o v, getattr o name = Ok v -> exists f, v = PInt f) -> readable a name -> readable b name ->
  (exists r, format_then_data psnr w code_for name opts a b = Ok r) <-> can_if_format psnr w name (fun f => unit_of (code_for f)) opts a b.
Proof.
  intros R [x Hx] [y Hy]. destruct (R a x Hx) as [f ->]. destruct (R b y Hy) as [g ->]. unfold format_then_data, can_if_format.
  rewrite (proj2 (format_of_ok a name f (R a)) Hx), (proj2 (format_of_ok b name g (R b)) Hy). cbn [rbind]. destruct (f =? g) eqn:E.
  - apply Z.eqb_eq in E. subst g. split.
    + intros [r H]. apply rbind_ok in H as (c & Hc & _). intros f' F1 F2. assert (f' = f) by congruence. subst f'. apply data_child_ok. exists c; exact Hc.
    + intros H. specialize (H f Hx Hy). apply data_child_ok in H as [c ->]. cbn [rbind]. eexists; reflexivity.
  - split; [|intros _; eexists; reflexivity]. intros _ f' F1 F2. exfalso. assert (f = g) by congruence. lia.
Qed.
Lemma audio_units f : unit_of (code_for_audio f) = audio_unit f.
Proof.
  unfold code_for_audio, audio_unit, member, existsb.
  assert (T : forall c, (f =? c) = true -> f = c) by (intros; lia).
  repeat match goal with |- context [f =? ?c] => destruct (f =? c) eqn:?; [match goal with H : (f =? c) = true |- _ => apply T in H; try rewrite H; reflexivity end|] end.
  reflexivity.
Qed.
Lemma video_units f : unit_of (code_for_video f) = video_unit f.
Proof.
  unfold code_for_video, video_unit. destruct (f =? v210) eqn:E1; [apply Z.eqb_eq in E1; subst f; reflexivity|].
  destruct (f =? v216) eqn:E2; [apply Z.eqb_eq in E2; subst f; reflexivity|]. destruct (IS_COMPRESSED f); [reflexivity|]. destruct (IS_PACKED f); [reflexivity|].
  cbn [orb]. destruct (BYTES_PER_VALUE f =? 1); [reflexivity|]. destruct (BYTES_PER_VALUE f =? 2); reflexivity.
Qed.
Definition eight : list str :=
  [$"cog_frame_format"; $"coded_width"; $"coded_height"; $"origin_width"; $"origin_height"; $"is_key_frame"; $"temporal_offset"; $"cog_frame_layout"].
Theorem children_ok psnr opts a b : (exists r, grain_children psnr opts a b = Ok r) <-> can_compare psnr (normal opts) a b.
Proof.
  unfold grain_children. fold (normal opts). set (O := normal opts).
  set (N3 := [$"origin_timestamp"; $"sync_timestamp"; $"creation_timestamp"]).
  split.
  - intros [r H].
    apply rbind_ok in H as (basic & Hbasic & H). apply rbind_ok in H as (times & Htimes & H).
    apply rbind_ok in H as (la & Hla & H). apply rbind_ok in H as (lb & Hlb & H). apply rbind_ok in H as (tl & Htl & H).
    apply rbind_ok in H as (ta & Hta & H). apply rbind_ok in H as (tb & Htb & H). cbv zeta in H.
    constructor.
    + apply (equalities_ok getattr O six a b). exists basic; exact Hbasic.
    + apply (instants_ok O N3 a b); [auto|]. exists times; exact Htimes.
    + intros o [-> | ->]; [exists la|exists lb]; auto.
    + intros t u E1 E2 Eq. clear Htl. rewrite Hta in E1. rewrite Htb in E2. apply Ok_eq in E1. apply Ok_eq in E2. subst t u. rewrite Eq in H. cbn [negb] in H.
      assert (NT : forall s, type_is ta s = false -> ta <> PStr s).
      { intros s F G. subst ta. unfold type_is in F. cbn [py_eq] in F. rewrite zlist_eqb_refl in F. discriminate F. }
      destruct (type_is ta $"event") eqn:T1.
      { apply type_is_eq in T1. subst ta. apply rbind_ok in H as (le & Hle & H). apply rbind_ok in H as (ea & Hea & H). apply rbind_ok in H as (eb & Heb & H).
        constructor; try (intros F; discriminate F); [|intros F; exfalso; apply F; cbn [known_types map In]; tauto].
        intros _ o Ho. assert (R : exists l, equalities getattr O [$"event_type"; $"topic"] a b = Ok l) by (exists le; exact Hle). rewrite equalities_ok in R.
        split; [apply R; cbn [In]; auto|]. split; [apply R; cbn [In]; auto|]. destruct Ho as [-> | ->]; [exists ea|exists eb]; auto. }
      destruct (type_is ta $"audio") eqn:T2.
      { apply type_is_eq in T2. subst ta. apply rbind_ok in H as (le & Hle & H). apply rbind_ok in H as ([o2 d] & Hd & _).
        constructor; try (intros F; discriminate F); [|intros F; exfalso; apply F; cbn [known_types map In]; tauto].
        intros _. assert (R : exists l, equalities getattr O [$"cog_audio_format"; $"samples"; $"channels"; $"sample_rate"] a b = Ok l) by (exists le; exact Hle).
        rewrite equalities_ok in R. split; [exact R|]. intros f F1 F2. rewrite <- audio_units.
        apply (proj1 (format_then_ok psnr true code_for_audio $"cog_audio_format" O a b audio_format_result
          (R a (or_introl eq_refl) _ (or_introl eq_refl)) (R b (or_intror eq_refl) _ (or_introl eq_refl))) (ex_intro _ _ Hd) f F1 F2). }
      destruct (type_is ta $"coded_audio") eqn:T3.
      { apply type_is_eq in T3. subst ta. apply rbind_ok in H as (le & Hle & H). apply rbind_ok in H as ([o2 d] & Hd & _).
        constructor; try (intros F; discriminate F); [|intros F; exfalso; apply F; cbn [known_types map In]; tauto].
        intros _. assert (R : exists l, equalities getattr O [$"cog_audio_format"; $"samples"; $"channels"; $"sample_rate"; $"priming"; $"remainder"] a b = Ok l) by (exists le; exact Hle).
        rewrite equalities_ok in R. split; [exact R|]. intros f F1 F2.
        apply (proj1 (format_then_ok psnr false (fun _ => CB) $"cog_audio_format" O a b audio_format_result
          (R a (or_introl eq_refl) _ (or_introl eq_refl)) (R b (or_intror eq_refl) _ (or_introl eq_refl))) (ex_intro _ _ Hd) f F1 F2). }
      destruct (type_is ta $"video") eqn:T4.
      { apply type_is_eq in T4. subst ta. apply rbind_ok in H as (le & Hle & H). apply rbind_ok in H as ([o2 d] & Hd & _).
        constructor; try (intros F; discriminate F); [|intros F; exfalso; apply F; cbn [known_types map In]; tauto].
        intros _. assert (R : exists l, equalities getattr O [$"cog_frame_format"; $"width"; $"height"; $"cog_frame_layout"] a b = Ok l) by (exists le; exact Hle).
        rewrite equalities_ok in R. split; [exact R|]. intros f F1 F2. rewrite <- video_units.
        apply (proj1 (format_then_ok psnr true code_for_video $"cog_frame_format" O a b frame_format_result
          (R a (or_introl eq_refl) _ (or_introl eq_refl)) (R b (or_intror eq_refl) _ (or_introl eq_refl))) (ex_intro _ _ Hd) f F1 F2). }
      destruct (type_is ta $"coded_video") eqn:T5.
      { apply type_is_eq in T5. subst ta. apply rbind_ok in H as (le & Hle & H). apply rbind_ok in H as (oa & Hoa & H). apply rbind_ok in H as (ob & Hob & H).
        apply rbind_ok in H as (u & Hu & H). apply rbind_ok in H as ([o2 d] & Hd & _).
        constructor; try (intros F; discriminate F); [|intros F; exfalso; apply F; cbn [known_types map In]; tauto].
        intros _. assert (R : exists l, equalities getattr_or_none O eight a b = Ok l) by (exists le; exact Hle). rewrite equalities_ok in R.
        assert (RF : readable a $"cog_frame_format" /\ readable b $"cog_frame_format").
        { unfold format_then_data in Hd. apply rbind_ok in Hd as (f & Hf & Hd). apply rbind_ok in Hd as (g & Hg & _).
          split; [exists (PInt f)|exists (PInt g)]; apply format_of_ok; auto; apply frame_format_result. }
        split.
        - intros o Ho. split; [destruct Ho as [-> | ->]; tauto|]. split.
          + intros n Hn. destruct (R o Ho n) as [v Hv]; [unfold eight; right; exact Hn|]. apply or_none_same in Hv as [Hv|[Hv _]]; [left; exists v; exact Hv|right; exact Hv].
          + destruct Ho as [-> | ->]; [exists oa|exists ob]; auto.
        - intros f F1 F2. apply (proj1 (format_then_ok psnr false (fun _ => CB) $"cog_frame_format" O a b frame_format_result (proj1 RF) (proj2 RF)) (ex_intro _ _ Hd) f F1 F2). }
      apply rbind_ok in H as (d & Hd & _).
      constructor; try (intros F; exfalso; revert F; apply NT; assumption). intros _. apply (data_child_ok psnr false CB O a b). exists d; exact Hd.
    + intros la' lb' i d e k E1 E2 P Q. rewrite Hla in E1. rewrite Hlb in E2. apply Ok_eq in E1. apply Ok_eq in E2. subst la' lb'.
      apply (proj1 (mappings_ok O $"timelabels" (Some $"timelabels") la lb (plain_text $"timelabels" eq_refl)) (ex_intro _ tl Htl) i d e k P Q).
    + intros E1 E2. unfold has_type in E1, E2. rewrite Hta in E1. rewrite Htb in E2. apply Ok_eq in E1. apply Ok_eq in E2. subst ta tb.
      change (negb (py_eq (PStr $"event") (PStr $"event"))) with false in H. change (type_is (PStr $"event") $"event") with true in H. cbn iota in H.
      apply rbind_ok in H as (le & Hle & H). apply rbind_ok in H as (ea & Hea & H). apply rbind_ok in H as (eb & Heb & H). apply rbind_ok in H as (ev & Hev & _).
      intros la' lb' i d e k E1 E2 P Q. unfold entries in E1, E2. rewrite Hea in E1. rewrite Heb in E2. apply Ok_eq in E1. apply Ok_eq in E2. subst la' lb'.
      apply (proj1 (mappings_ok O $"event_data" (Some $"event_data") ea eb (plain_text $"event_data" eq_refl)) (ex_intro _ ev Hev) i d e k P Q).
  - intros [P T L Y KL KE].
    destruct (proj2 (equalities_ok getattr O six a b) P) as [basic Hbasic]. unfold six in Hbasic. rewrite Hbasic. cbn [rbind].
    destruct (proj2 (instants_ok O N3 a b (fun n H => H)) T) as [times Htimes]. rewrite Htimes. cbn [rbind].
    destruct (L a (or_introl eq_refl)) as [la Hla]. destruct (L b (or_intror eq_refl)) as [lb Hlb]. rewrite Hla, Hlb. cbn [rbind].
    destruct (proj2 (mappings_ok O $"timelabels" (Some $"timelabels") la lb (plain_text $"timelabels" eq_refl))) as [tl ->]; [intros i d e k P' Q'; apply (KL la lb i d e k Hla Hlb P' Q')|].
    cbn [rbind].
    destruct (P a (or_introl eq_refl) $"grain_type" (or_introl eq_refl)) as [ta Hta]. destruct (P b (or_intror eq_refl) $"grain_type" (or_introl eq_refl)) as [tb Htb].
    rewrite Hta, Htb. cbn [rbind]. cbv zeta. destruct (py_eq ta tb) eqn:Eq; cbn [negb]; [|eexists; reflexivity].
    specialize (Y ta tb Hta Htb Eq). destruct Y as [Y1 Y2 Y3 Y4 Y5 Y6].
    assert (NT : forall s, type_is ta s = false -> ta <> PStr s).
    { intros s F G. subst ta. unfold type_is in F. cbn [py_eq] in F. rewrite zlist_eqb_refl in F. discriminate F. }
    destruct (type_is ta $"event") eqn:T1.
    { apply type_is_eq in T1. assert (KE' : keys_spelled entries a b).
      { apply KE; unfold has_type; [congruence|]. rewrite Htb. f_equal. subst ta. destruct tb; try discriminate Eq. cbn [py_eq] in Eq. apply zlist_eqb_eq in Eq. congruence. }
      specialize (Y1 T1). destruct (Y1 a (or_introl eq_refl)) as (A1 & A2 & ea & A3). destruct (Y1 b (or_intror eq_refl)) as (B1 & B2 & eb & B3).
      destruct (proj2 (equalities_ok getattr O [$"event_type"; $"topic"] a b)) as [le ->].
      { intros o [-> | ->] n [<-|[<-|[]]]; assumption. }
      cbn [rbind]. rewrite A3, B3. cbn [rbind].
      destruct (proj2 (mappings_ok O $"event_data" (Some $"event_data") ea eb (plain_text $"event_data" eq_refl))) as [e ->]; [intros i d e k P' Q'; apply (KE' ea eb i d e k A3 B3 P' Q')|].
      cbn [rbind]. eexists; reflexivity. }
    destruct (type_is ta $"audio") eqn:T2.
    { apply type_is_eq in T2. specialize (Y2 T2) as [R D].
      destruct (proj2 (equalities_ok getattr O [$"cog_audio_format"; $"samples"; $"channels"; $"sample_rate"] a b) R) as [le ->]. cbn [rbind].
      destruct (proj2 (format_then_ok psnr true code_for_audio $"cog_audio_format" O a b audio_format_result
          (R a (or_introl eq_refl) _ (or_introl eq_refl)) (R b (or_intror eq_refl) _ (or_introl eq_refl)))) as [[o2 d] ->].
      { intros f F1 F2. rewrite audio_units. apply D; auto. }
      cbn [rbind]. eexists; reflexivity. }
    destruct (type_is ta $"coded_audio") eqn:T3.
    { apply type_is_eq in T3. specialize (Y3 T3) as [R D].
      destruct (proj2 (equalities_ok getattr O [$"cog_audio_format"; $"samples"; $"channels"; $"sample_rate"; $"priming"; $"remainder"] a b) R) as [le ->]. cbn [rbind].
      destruct (proj2 (format_then_ok psnr false (fun _ => CB) $"cog_audio_format" O a b audio_format_result
          (R a (or_introl eq_refl) _ (or_introl eq_refl)) (R b (or_intror eq_refl) _ (or_introl eq_refl))) D) as [[o2 d] ->].
      cbn [rbind]. eexists; reflexivity. }
    destruct (type_is ta $"video") eqn:T4.
    { apply type_is_eq in T4. specialize (Y4 T4) as [R D].
      destruct (proj2 (equalities_ok getattr O [$"cog_frame_format"; $"width"; $"height"; $"cog_frame_layout"] a b) R) as [le ->]. cbn [rbind].
      destruct (proj2 (format_then_ok psnr true code_for_video $"cog_frame_format" O a b frame_format_result
          (R a (or_introl eq_refl) _ (or_introl eq_refl)) (R b (or_intror eq_refl) _ (or_introl eq_refl)))) as [[o2 d] ->].
      { intros f F1 F2. rewrite video_units. apply D; auto. }
      cbn [rbind]. eexists; reflexivity. }
    destruct (type_is ta $"coded_video") eqn:T5.
    { apply type_is_eq in T5. specialize (Y5 T5) as [R D]. destruct (R a (or_introl eq_refl)) as (A1 & A2 & oa & A3). destruct (R b (or_intror eq_refl)) as (B1 & B2 & ob & B3).
      destruct (proj2 (equalities_ok getattr_or_none O eight a b)) as [le Hle].
      { assert (G : forall o, readable o $"cog_frame_format" -> (forall n, In n [$"coded_width"; $"coded_height"; $"origin_width"; $"origin_height"; $"is_key_frame"; $"temporal_offset"; $"cog_frame_layout"] ->
          readable o n \/ getattr o n = Err EAttr) -> forall n, In n eight -> exists v, getattr_or_none o n = Ok v).
        { intros o [v Hv] RA n [<-|Hn]; [exists v; apply or_none_same; auto|]. destruct (RA n Hn) as [[w Hw]|Hw]; [exists w|exists PNone]; apply or_none_same; auto. }
        intros o [-> | ->]; apply G; auto. }
      unfold eight in Hle. rewrite Hle. cbn [rbind]. rewrite A3, B3. cbn [rbind].
      destruct (proj2 (ordered_ok (fun i k x y => Ok (difference i O None (Some k) x y)) (path $"unit_offsets") O (Some $"unit_offsets") oa ob)) as [u ->]; [intros; eexists; reflexivity|].
      cbn [rbind]. destruct (proj2 (format_then_ok psnr false (fun _ => CB) $"cog_frame_format" O a b frame_format_result A1 B1) D) as [[o2 d] ->].
      cbn [rbind]. eexists; reflexivity. }
    destruct (proj2 (data_child_ok psnr false CB O a b)) as [d ->]; [apply Y6; cbn [known_types map In]|cbn [rbind]; eexists; reflexivity].
    intros [F|[F|[F|[F|[F|[]]]]]]; symmetry in F; revert F; apply NT; assumption.
Qed.
Lemma can_normal psnr opts a b : can_compare psnr (normal opts) a b <-> can_compare psnr opts a b.
Proof.
  assert (D : forall w u, can_data psnr w u (normal opts) a b <-> can_data psnr w u opts a b).
  { intros w u. unfold can_data. destruct (normal_eases opts) as (E1 & _ & E3). destruct (eases_normal opts) as (E4 & _ & _).
    split; intros [A B]; split.
    - intros F [m Hm]. destruct (A F) as [W|W]; [exists m; apply E3, Hm| |auto]. left. apply E1; auto. unfold is_creation. discriminate.
    - intros F. apply B. intros G m Hm. apply (F G m), E3, Hm.
    - intros F [m Hm]. destruct (A F) as [W|W]; [exists m; apply E3, Hm| |auto]. left. apply E4; auto.
    - intros F. apply B. intros G m Hm. apply (F G m), E3, Hm. }
  assert (F : forall w name u, can_if_format psnr w name u (normal opts) a b <-> can_if_format psnr w name u opts a b).
  { intros w name u. unfold can_if_format. split; intros H f F1 F2; apply D; apply H; auto. }
  assert (T : forall t, can_type psnr t (normal opts) a b <-> can_type psnr t opts a b).
  { intros t. split; intros [A B C E G H]; (constructor; [exact A| | | | |intros X; apply D, H, X]); intros X.
    - destruct (B X). split; [|apply F]; auto. - destruct (C X). split; [|apply F]; auto. - destruct (E X). split; [|apply F]; auto.
    - destruct (G X). split; [|apply F]; auto. - destruct (B X). split; [|apply F]; auto. - destruct (C X). split; [|apply F]; auto.
    - destruct (E X). split; [|apply F]; auto. - destruct (G X). split; [|apply F]; auto. }
  split; intros [A B C E]; constructor; auto; intros t u E1 E2 E3; apply T; apply (E t u); auto.
Qed.
Theorem compare_total psnr key opts a b : (exists r, compare_with_key psnr key opts a b = Ok r) <-> can_compare psnr opts a b.
Proof.
  rewrite <- can_normal, <- children_ok. unfold compare_with_key. split.
  - intros [r H]. apply rbind_ok in H as (x & Hx & _). exists x; exact Hx.
  - intros [[o l] ->]. cbn [rbind]. eexists; reflexivity.
Qed.
