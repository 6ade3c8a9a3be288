(** From the tree of results to agreement of the attributes. *)
From Coq Require Import String Lia ZifyBool ZifyNat.
From Verif Require Import Base BaseProofs PyValue PyValueProofs Json JsonProofs CogEnums GrainObj Difflib DifflibProofs Compare CompareSpec CompareProofs.
Local Open Scope list_scope.

Lemma dget_alternatives id q : dget id alternatives = Some q <-> other_name id q.
Proof.
  split.
  - intros H. apply dget_in in H. cbn [alternatives In] in H.
    destruct H as [E|[E|[E|[E|[]]]]]; injection E as <- <-; constructor.
  - intros H; destruct H; reflexivity.
Qed.
Lemma excludes_spec id o : excludes id o = true <-> exists p, o = OExclude p /\ (p = id \/ other_name id p).
Proof.
  destruct o as [p| | |]; cbn [excludes]; try (split; [discriminate|intros (p' & E & _); discriminate E]).
  rewrite orb_true_iff. split.
  - intros [H|H].
    + apply zlist_eqb_eq in H. subst. exists p; auto.
    + destruct (dget id alternatives) as [q|] eqn:E; [|discriminate]. apply zlist_eqb_eq in H. subst q. apply dget_alternatives in E. exists p; auto.
  - intros (p' & E & H). injection E as ->. destruct H as [->|H]; [left; apply zlist_eqb_refl|right].
    apply dget_alternatives in H. rewrite H. apply zlist_eqb_refl.
Qed.
Lemma excluded_waived opts id : excluded_by opts id = true <-> waived opts id.
Proof.
  unfold excluded_by. rewrite existsb_exists. split.
  - intros (o & H & E). apply excludes_spec in E as (p & -> & E). exists p; auto.
  - intros (p & H & E). exists (OExclude p). split; auto. apply excludes_spec. exists p; auto.
Qed.
Lemma or_waived b opts id (P : Prop) : (b = true <-> P) -> (b || excluded_by opts id = true <-> waived opts id \/ P).
Proof. intros H. rewrite orb_true_iff, excluded_waived, H. tauto. Qed.

(** ** The plain children. *)
Definition skipping (skip : str -> bool) (l : list cres) : bool := forallb (fun c => skip (r_id c) || (r_equal c || excluded c)) l.
Lemma all_skipping l : all_agree l = skipping (fun _ => false) l.
Proof. reflexivity. Qed.
Lemma skipping_app skip l m : skipping skip (l ++ m) = skipping skip l && skipping skip m.
Proof. apply forallb_app. Qed.
Lemma skipping_length l : all_agree (map exclude_length l) = skipping (fun i => zlist_eqb i (path $"length")) l.
Proof.
  induction l as [|[i at_ k o e ch] l IH]; [reflexivity|]. cbn [map all_agree forallb skipping]. fold (all_agree (map exclude_length l)).
  rewrite IH. f_equal. cbn [exclude_length r_id]. destruct (zlist_eqb i (path $"length")) eqn:E; cbn [r_id r_equal r_opts excluded orb].
  - apply zlist_eqb_eq in E. subst i. unfold excluded, r_opts, r_id, excluded_by. rewrite existsb_app. cbn [existsb excludes Exclude].
    rewrite zlist_eqb_refl. cbn [orb]. rewrite !orb_true_r. reflexivity.
  - reflexivity.
Qed.
Lemma equalities_agree skip get opts names a b l : equalities get opts names a b = Ok l ->
  skipping skip l = true <->
  forall n, In n names -> skip (path n) = true \/ waived opts (path n) \/ exists x y, get a n = Ok x /\ get b n = Ok y /\ py_eq x y = true.
Proof.
  revert l. induction names as [|n names IH]; intros l H; cbn [equalities] in H.
  - apply Ok_eq in H. subst l. split; [intros _ n []|reflexivity].
  - apply rbind_ok in H as (x & Hx & H). apply rbind_ok in H as (y & Hy & H). apply rbind_ok in H as (r & Hr & H). apply Ok_eq in H. subst l.
    specialize (IH r Hr). cbn [skipping forallb]. fold (skipping skip r). rewrite andb_true_iff, IH, orb_true_iff. cbn [equality r_id r_equal excluded r_opts].
    unfold excluded at 1. cbn [r_opts r_id]. rewrite (or_waived (py_eq x y) opts (path n) (py_eq x y = true)) by tauto.
    split.
    + intros [A B] m [<-|Hm]; [|apply B, Hm]. destruct A as [A|[A|A]]; [left; auto|right; left; auto|right; right]. exists x, y; auto.
    + intros A. split; [|intros m Hm; apply A; right; exact Hm].
      destruct (A n (or_introl eq_refl)) as [B|[B|(x' & y' & B & C & D)]]; auto. right; right. congruence.
Qed.
Lemma expectations_in id opts m : In m (expectations id opts) <-> In (OExpect id m) opts.
Proof.
  unfold expectations. rewrite in_flat_map. split.
  - intros (o & H & E). destruct o as [| |p m'|]; try destruct E. destruct (zlist_eqb id p) eqn:F; [|destruct E].
    apply zlist_eqb_eq in F. subst p. destruct E as [<-|[]]. exact H.
  - intros H. exists (OExpect id m). split; auto. rewrite zlist_eqb_refl. left; reflexivity.
Qed.
Lemma difference_expected id opts at_ key x y : r_equal (difference id opts at_ key x y) = true <-> expected opts id (x - y).
Proof.
  unfold difference, expected. cbn [r_equal]. destruct (expectations id opts) as [|m ms] eqn:E.
  - rewrite Z.eqb_eq. assert (N : forall m, ~ In (OExpect id m) opts) by (intros m Hm; apply expectations_in in Hm; rewrite E in Hm; destruct Hm).
    split; [intros H; split; auto; intros m Hm; destruct (N m Hm)|intros [_ H]; auto].
  - rewrite forallb_forall. rewrite <- E. split.
    + intros H. split; [intros m' Hm; apply H; apply expectations_in; exact Hm|].
      intros N. exfalso. apply (N m). apply expectations_in. rewrite E. left; reflexivity.
    + intros [H _] m' Hm. apply H. apply expectations_in. exact Hm.
Qed.
Lemma as_instant_ok v t : as_instant v = Ok t -> v = PTime t.
Proof. destruct v; cbn [as_instant]; intros H; try discriminate H. apply Ok_eq in H. congruence. Qed.
Lemma instants_agree skip opts names a b l : (forall n, In n names -> skip (path n) = false) -> instants opts names a b = Ok l ->
  skipping skip l = true <-> forall n, In n names -> times_agree opts a b n.
Proof.
  revert l. induction names as [|n names IH]; intros l S H; cbn [instants] in H.
  - apply Ok_eq in H. subst l. split; [intros _ n []|reflexivity].
  - apply rbind_ok in H as (x & Hx & H). apply rbind_ok in H as (y & Hy & H). apply rbind_ok in H as (r & Hr & H). apply Ok_eq in H. subst l.
    specialize (IH r (fun m Hm => S m (or_intror Hm)) Hr). cbn [skipping forallb]. fold (skipping skip r). rewrite andb_true_iff, IH.
    replace (r_id (difference (path n) opts (Some n) None x y)) with (path n) by reflexivity.
    rewrite (S n (or_introl eq_refl)). cbn [orb].
    replace (excluded (difference (path n) opts (Some n) None x y)) with (excluded_by opts (path n)) by reflexivity.
    rewrite (or_waived _ opts (path n) _ (difference_expected (path n) opts (Some n) None x y)).
    apply rbind_ok in Hx as (u & Hu & Hx). apply as_instant_ok in Hx. subst u.
    apply rbind_ok in Hy as (v & Hv & Hy). apply as_instant_ok in Hy. subst v.
    split.
    + intros [A B] m [<-|Hm]; [|apply B, Hm]. destruct A as [A|A]; [left; auto|right]. exists x, y; auto.
    + intros A. split; [|intros m Hm; apply A; right; exact Hm].
      destruct (A n (or_introl eq_refl)) as [B|(x' & y' & B & C & D)]; auto. right. rewrite Hu in B. rewrite Hv in C.
      apply Ok_eq in B. apply Ok_eq in C. congruence.
Qed.

(** ** Lists and dictionaries. *)
Definition child_of {A} (opts : list copt) (cmp : str -> ckey -> A -> A -> res cres) (el : str -> A -> A -> Prop) : Prop :=
  forall i k x y c, cmp i k x y = Ok c -> r_id c = i /\ r_opts c = opts /\ (r_equal c = true <-> el i x y).
Lemma only_agree {A} id opts : forall (l : list A) n, all_agree (only id opts n l) = true <->
  forall i, (i < List.length l)%nat -> waived opts (at_index id (n + Z.of_nat i)).
Proof.
  induction l as [|x l IH]; intros n; cbn [only all_agree forallb].
  - split; [intros _ i Hi; cbn in Hi; lia|reflexivity].
  - fold (all_agree (only id opts (n + 1) l)). rewrite andb_true_iff, IH. cbn [failing r_equal orb]. unfold excluded. cbn [r_opts r_id].
    rewrite excluded_waived. split.
    + intros [A1 B] [|i] Hi; [replace (n + Z.of_nat 0) with n by lia; exact A1|].
      replace (n + Z.of_nat (S i)) with (n + 1 + Z.of_nat i) by lia. apply B. cbn in Hi; lia.
    + intros H. split; [specialize (H 0%nat); replace (n + Z.of_nat 0) with n in H by lia; apply H; cbn; lia|].
      intros i Hi. specialize (H (S i)). replace (n + Z.of_nat (S i)) with (n + 1 + Z.of_nat i) in H by lia. apply H. cbn; lia.
Qed.
Lemma elements_agree {A} id opts cmp el : @child_of A opts cmp el -> forall a b n l, elements id opts cmp n a b = Ok l ->
  all_agree l = true <->
  forall i, (i < List.length a)%nat \/ (i < List.length b)%nat ->
    waived opts (at_index id (n + Z.of_nat i)) \/
    exists x y, nth_error a i = Some x /\ nth_error b i = Some y /\ el (at_index id (n + Z.of_nat i)) x y.
Proof.
  intros HC. induction a as [|x a IH]; intros b n l H.
  - assert (E : elements id opts cmp n [] b = Ok (only id opts n b)) by (destruct b; reflexivity). rewrite E in H. apply Ok_eq in H. subst l.
    rewrite only_agree. split.
    + intros H i [Hi|Hi]; [cbn in Hi; lia|left; auto].
    + intros H i Hi. destruct (H i (or_intror Hi)) as [W|(x & y & N & _)]; auto. destruct i; discriminate N.
  - destruct b as [|y b]; cbn [elements] in H.
    + apply Ok_eq in H. subst l. rewrite only_agree. split.
      * intros H i [Hi|Hi]; [left; auto|cbn in Hi; lia].
      * intros H i Hi. destruct (H i (or_introl Hi)) as [W|(x' & y & _ & N & _)]; auto. destruct i; discriminate N.
    + apply rbind_ok in H as (c & Hc & H). apply rbind_ok in H as (r & Hr & H). apply Ok_eq in H. subst l.
      specialize (IH b (n + 1) r Hr). destruct (HC _ _ _ _ _ Hc) as (I & O & E). cbn [all_agree forallb]. fold (all_agree r).
      rewrite andb_true_iff, IH. unfold excluded. rewrite I, O. rewrite (or_waived _ opts (at_index id n) _ E). split.
      * intros [P Q] [|i] Hi.
        -- replace (n + Z.of_nat 0) with n by lia. destruct P as [P|P]; [left; auto|right]. exists x, y. auto.
        -- replace (n + Z.of_nat (S i)) with (n + 1 + Z.of_nat i) by lia. apply Q. cbn in Hi; lia.
      * intros H. split.
        -- specialize (H 0%nat). replace (n + Z.of_nat 0) with n in H by lia. destruct H as [P|(x' & y' & P & Q & R)]; [cbn; lia|left; auto|right].
           cbn in P, Q. congruence.
        -- intros i Hi. specialize (H (S i)). replace (n + Z.of_nat (S i)) with (n + 1 + Z.of_nat i) in H by lia. apply H. cbn; lia.
Qed.
Lemma ordered_agree {A} cmp el id opts at_ (a b : list A) r : child_of opts cmp el -> ordered cmp id opts at_ a b = Ok r ->
  r_id r = id /\ r_opts r = opts /\ (r_equal r = true <-> lists_agree opts el id a b).
Proof.
  intros HC H. unfold ordered in H. apply rbind_ok in H as (l & Hl & H). apply Ok_eq in H. subst r.
  split; [reflexivity|]. split; [reflexivity|]. cbn [r_equal]. cbn [all_agree forallb]. fold (all_agree l). rewrite andb_true_iff.
  rewrite (elements_agree id opts cmp el HC a b 0 l Hl). unfold lists_agree.
  cbn [equality r_equal]. unfold excluded. cbn [r_opts r_id py_eq as_q].
  rewrite (or_waived _ opts ($"len(" ++ id ++ $")") (List.length a = List.length b)).
  2: { cbn. unfold zlen. rewrite andb_true_r, Z.eqb_eq. lia. }
  reflexivity.
Qed.
Lemma flat_agree {A} (f : A -> list cres) l : all_agree (flat_map f l) = true <-> forall x, In x l -> all_agree (f x) = true.
Proof.
  induction l as [|x l IH]; cbn [flat_map]; [split; [intros _ x []|reflexivity]|].
  unfold all_agree in *. rewrite forallb_app, andb_true_iff, IH. split; [intros [A1 B] y [<-|H]; auto|intros H; split; [apply H; left; auto|intros y Hy; apply H; right; auto]].
Qed.
Lemma in_key {A} k (d : list (str * A)) : dget k d <> None <-> exists v, In (k, v) d.
Proof.
  split.
  - intros H. destruct (dget k d) as [v|] eqn:E; [|congruence]. exists v. apply dget_in, E.
  - intros (v & H) E. apply dget_none in E. apply E. apply in_map_iff. exists (k, v); auto.
Qed.
Lemma mapping_child opts : child_of opts (mapping opts) (dicts_agree opts).
Proof.
  intros i key d e c H. unfold mapping in H. apply rbind_ok in H as (names & _ & H). apply Ok_eq in H. subst c. split; [reflexivity|]. split; [reflexivity|]. cbn [r_equal].
  unfold all_agree. rewrite !forallb_app, !andb_true_iff. fold (all_agree (flat_map (both i opts d e) d)).
  fold (all_agree (flat_map (missing i opts e) d)). fold (all_agree (flat_map (missing i opts d) e)). rewrite !flat_agree. unfold dicts_agree.
  assert (M : forall k v, all_agree (missing i opts v k) = true <-> (dget (fst k) v = None -> waived opts (at_key i (fst k)))).
  { intros [k z] v. unfold missing. cbn [fst]. destruct (dget k v) as [w|]; cbn [all_agree forallb].
    - split; [intros _ F; discriminate F|reflexivity].
    - rewrite andb_true_r. cbn [failing r_equal orb]. unfold excluded. cbn [r_opts r_id]. rewrite excluded_waived. tauto. }
  assert (B : forall k, all_agree (both i opts d e k) = true <->
    (forall v w, dget (fst k) d = Some v -> dget (fst k) e = Some w -> waived opts (at_key i (fst k)) \/ py_eq v w = true)).
  { intros [k z]. unfold both. cbn [fst]. destruct (dget k d) as [v|]; [|split; [intros _ v w F; discriminate F|reflexivity]].
    destruct (dget k e) as [w|]; [|split; [intros _ v' w F1 F2; discriminate F2|reflexivity]]. cbn [all_agree forallb]. rewrite andb_true_r.
    cbn [equality r_equal]. unfold excluded. cbn [r_opts r_id]. rewrite (or_waived _ opts (at_key i k) (py_eq v w = true)) by tauto.
    split; [intros H v' w' E1 E2; congruence|auto]. }
  split.
  - intros (H1 & H2 & H3) k [Hk|Hk].
    + pose proof Hk as Hk'. apply in_key in Hk' as (v0 & Hin). destruct (dget k d) as [v|] eqn:Ed; [|congruence].
      destruct (dget k e) as [w|] eqn:Ee.
      * pose proof (H1 _ Hin) as Q. rewrite B in Q. cbn [fst] in Q. destruct (Q v w Ed Ee) as [W|W]; [left; auto|right; exists v, w; auto].
      * left. apply (proj1 (M (k, v0) e) (H2 _ Hin)). exact Ee.
    + pose proof Hk as Hk'. apply in_key in Hk' as (w0 & Hin). destruct (dget k e) as [w|] eqn:Ee; [|congruence].
      destruct (dget k d) as [v|] eqn:Ed.
      * assert (Hd : dget k d <> None) by congruence. apply in_key in Hd as (v0 & Hin').
        pose proof (H1 _ Hin') as Q. rewrite B in Q. cbn [fst] in Q. destruct (Q v w Ed Ee) as [W|W]; [left; auto|right; exists v, w; auto].
      * left. apply (proj1 (M (k, w0) d) (H3 _ Hin)). exact Ed.
  - intros H. split; [|split].
    + intros [k v0] Hin. apply B. cbn [fst]. intros v w Ed Ee. assert (Hd : dget k d <> None) by congruence. destruct (H k (or_introl Hd)) as [W|(v' & w' & E1 & E2 & E3)]; auto.
      right. congruence.
    + intros [k v0] Hin. apply M. cbn [fst]. intros Ee. assert (Hd : dget k d <> None) by (apply in_key; exists v0; exact Hin).
      destruct (H k (or_introl Hd)) as [W|(v' & w' & E1 & E2 & E3)]; auto. congruence.
    + intros [k v0] Hin. apply M. cbn [fst]. intros Ed. assert (He : dget k e <> None) by (apply in_key; exists v0; exact Hin).
      destruct (H k (or_intror He)) as [W|(v' & w' & E1 & E2 & E3)]; auto. congruence.
Qed.
Lemma difference_child opts : child_of opts (fun i k x y => Ok (difference i opts None (Some k) x y)) (numbers_agree opts).
Proof. intros i k x y c H. apply Ok_eq in H. subst c. split; [reflexivity|]. split; [reflexivity|]. apply difference_expected. Qed.

(** ** The payload. *)
Definition payload_ok (o : gobj) : Prop := forall x, get_data o = Ok (Some x) -> bytes_ok x.
Lemma matchers_in id opts m : In m (psnr_matchers id opts) <-> In (OPsnr id m) opts.
Proof.
  unfold psnr_matchers. rewrite in_flat_map. split.
  - intros (o & H & E). destruct o as [| | |p m']; try destruct E. destruct (zlist_eqb id p) eqn:F; [|destruct E].
    apply zlist_eqb_eq in F. subst p. destruct E as [<-|[]]. exact H.
  - intros H. exists (OPsnr id m). split; auto. rewrite zlist_eqb_refl. left; reflexivity.
Qed.
Lemma data_child_agree psnr w c opts a b r : payload_ok a -> payload_ok b -> data_child psnr w c opts a b = Ok r ->
  r_id r = data_path /\ r_opts r = opts /\ (r_equal r || excluded r = true <-> data_agree psnr w (kind_of c) opts a b).
Proof.
  intros Pa Pb H. unfold data_child in H.
  assert (W : waived opts data_path -> r_id r = data_path -> r_opts r = opts -> (r_equal r || excluded r = true <-> data_agree psnr w (kind_of c) opts a b)).
  { intros W E1 E2. unfold excluded. rewrite E1, E2. split; [intros _; left; exact W|intros _]. apply excluded_waived in W. rewrite W. apply orb_true_r. }
  destruct (w && _) eqn:E in H.
  - apply andb_true_iff in E as [-> E].
    assert (N : exists m, In (OPsnr data_path m) opts).
    { destruct (psnr_matchers data_path opts) as [|m ms] eqn:F; [discriminate E|]. exists m. apply matchers_in. rewrite F. left; reflexivity. }
    unfold psnr_result in H. destruct (excluded_by opts data_path) eqn:X.
    + apply Ok_eq in H. subst r. split; [reflexivity|]. split; [reflexivity|]. apply W; try reflexivity. apply excluded_waived, X.
    + apply rbind_ok in H as (p & Hp & H). apply Ok_eq in H. subst r. split; [reflexivity|]. split; [reflexivity|].
      unfold excluded. cbn [r_opts r_id r_equal]. rewrite X, orb_false_r. unfold data_agree. fold data_path.
      assert (NW : ~ waived opts data_path) by (rewrite <- excluded_waived, X; discriminate).
      split.
      * intros H. right; left. split; [reflexivity|]. split; [exact N|]. destruct p as [v|]; [|discriminate H]. exists v. split; [exact Hp|].
        rewrite forallb_forall in H. intros m Hm. apply H, matchers_in, Hm.
      * intros [H|[(_ & _ & v & Hv & H)|[H _]]]; [destruct (NW H)| |].
        -- rewrite Hp in Hv. apply Ok_eq in Hv. subst p. apply forallb_forall. intros m Hm. apply H, matchers_in, Hm.
        -- exfalso. destruct N as [m Hm]. apply (H eq_refl m Hm).
  - assert (N : w = true -> forall m, ~ In (OPsnr data_path m) opts).
    { intros -> m Hm. apply matchers_in in Hm. cbn [andb] in E. destruct (psnr_matchers data_path opts); [destruct Hm|discriminate E]. }
    apply rbind_ok in H as (x & Hx & H). apply rbind_ok in H as (y & Hy & H). unfold data_equality in H.
    apply rbind_ok in H as (u & Hu & H). apply rbind_ok in H as (v & Hv & H). apply Ok_eq in H. subst r.
    split; [reflexivity|]. split; [reflexivity|]. destruct (excluded_by opts data_path) eqn:X.
    + apply W; try reflexivity. apply excluded_waived, X.
    + unfold excluded. cbn [r_opts r_id r_equal]. rewrite X, orb_false_r. unfold data_agree. fold data_path.
      assert (NW : ~ waived opts data_path) by (rewrite <- excluded_waived, X; discriminate).
      assert (D : (match u, v with None, None => true | Some a, Some b => ratio_one word_eq a b | _, _ => false end = true) <->
        ((get_data a = Ok None /\ get_data b = Ok None) \/ exists x y, get_data a = Ok (Some x) /\ get_data b = Ok (Some y) /\ payload_agrees (kind_of c) x y)).
      { rewrite Hx, Hy. destruct x as [x|]; cbn [unpack_opt] in Hu.
        - apply rbind_ok in Hu as (wx & Hwx & Hu). apply Ok_eq in Hu. subst u. destruct y as [y|]; cbn [unpack_opt] in Hv.
          + apply rbind_ok in Hv as (wy & Hwy & Hv). apply Ok_eq in Hv. subst v. rewrite (payload_equal c x y wx wy); auto. split.
            * intros H. right. exists x, y. auto.
            * intros [[H _]|(x' & y' & E1 & E2 & H)]; [discriminate H|]. apply Ok_eq in E1. apply Ok_eq in E2. congruence.
          + apply Ok_eq in Hv. subst v. split; [discriminate|]. intros [[H _]|(x' & y' & E1 & E2 & H)]; [discriminate H|discriminate E2].
        - apply Ok_eq in Hu. subst u. destruct y as [y|]; cbn [unpack_opt] in Hv.
          + apply rbind_ok in Hv as (wy & Hwy & Hv). apply Ok_eq in Hv. subst v. split; [discriminate|].
            intros [[_ H]|(x' & y' & E1 & E2 & H)]; [discriminate H|discriminate E1].
          + apply Ok_eq in Hv. subst v. split; auto. }
      rewrite D. split.
      * intros H. right; right. split; auto.
      * intros [H|[(-> & (m & Hm) & _)|[_ H]]]; auto; [destruct (NW H)|destruct (N eq_refl m Hm)].
Qed.

(** ** Formats. *)
Lemma enum_result s k l o v : enum_attr s k l o = Ok v -> exists f, v = PInt f.
Proof.
  unfold enum_attr. intros H. apply rbind_ok in H as (x & _ & H). unfold to_member in H. destruct (as_q x) as [[z d]|]; [|discriminate H].
  destruct d as [|[p|p|]|p]; try discriminate H. apply rbind_ok in H as (f & _ & H). apply Ok_eq in H. exists f. congruence.
Qed.
Lemma frame_format_result o v : getattr o $"cog_frame_format" = Ok v -> exists f, v = PInt f.
Proof.
  destruct o as [c m d w]. destruct c; intros H; try discriminate H; eapply enum_result; exact H.
Qed.
Lemma audio_format_result o v : getattr o $"cog_audio_format" = Ok v -> exists f, v = PInt f.
Proof.
  destruct o as [c m d w]. destruct c; intros H; try discriminate H; eapply enum_result; exact H.
Qed.
Lemma format_of_ok o name f : (forall v, getattr o name = Ok v -> exists f, v = PInt f) -> format_of o name = Ok f <-> getattr o name = Ok (PInt f).
Proof.
  intros R. unfold format_of. split.
  - intros H. apply rbind_ok in H as (v & Hv & H). destruct (R v Hv) as [g ->]. cbn [as_number as_q] in H. apply Ok_eq in H. congruence.
  - intros H. rewrite H. reflexivity.
Qed.
Lemma format_then_agree psnr w code_for name opts a b o' d : payload_ok a -> payload_ok b ->
  (forall o v, getattr o name = Ok v -> exists f, v = PInt f) -> format_then_data psnr w code_for name opts a b = Ok (o', d) ->
  (r_equal d || excluded d = true <-> data_if_format psnr w name (fun f => kind_of (code_for f)) opts a b).
Proof.
  intros Pa Pb R H. unfold format_then_data in H. apply rbind_ok in H as (f & Hf & H). apply rbind_ok in H as (g & Hg & H).
  apply (format_of_ok _ _ _ (R a)) in Hf. apply (format_of_ok _ _ _ (R b)) in Hg. unfold data_if_format. destruct (f =? g) eqn:E.
  - apply Z.eqb_eq in E. subst g. apply rbind_ok in H as (c & Hc & H). apply Ok_eq in H. injection H as <- <-.
    apply data_child_agree in Hc as (_ & _ & Hc); auto. rewrite Hc. split.
    + intros D f' F1 F2. assert (f' = f) by congruence. subst f'. exact D.
    + intros D. apply D; auto.
  - apply Ok_eq in H. injection H as <- <-. split.
    + intros _ f' F1 F2. exfalso. assert (f = g) by congruence. lia.
    + intros _. unfold excluded. cbn [failing r_opts r_id]. unfold excluded_by. rewrite existsb_app. cbn [existsb excludes Exclude].
      fold data_path. rewrite zlist_eqb_refl. cbn [orb]. rewrite !orb_true_r. reflexivity.
Qed.
Lemma audio_codes f : kind_of (code_for_audio f) = audio_kind f.
Proof.
  unfold code_for_audio, audio_kind, member, existsb. destruct (f =? 0) eqn:E0; [apply Z.eqb_eq in E0; subst; reflexivity|].
  destruct (f =? 1) eqn:E1; [apply Z.eqb_eq in E1; subst; reflexivity|]. destruct (f =? 2) eqn:E2; [apply Z.eqb_eq in E2; subst; reflexivity|].
  cbn [orb]. destruct ((f =? 4) || ((f =? 5) || ((f =? 6) || false))); [reflexivity|].
  destruct (f =? 8) eqn:E8; [apply Z.eqb_eq in E8; subst; reflexivity|]. destruct (f =? 9) eqn:E9; [apply Z.eqb_eq in E9; subst; reflexivity|].
  destruct (f =? 10) eqn:E10; [apply Z.eqb_eq in E10; subst; reflexivity|]. destruct (f =? 12) eqn:E12; [apply Z.eqb_eq in E12; subst; reflexivity|].
  cbn [orb]. repeat (match goal with |- context [if ?b then _ else _] => destruct b end; try reflexivity).
Qed.
Lemma video_codes f : kind_of (code_for_video f) = Bytes.
Proof.
  unfold code_for_video. repeat (match goal with |- context [if ?b then _ else _] => destruct b end; try reflexivity).
Qed.

(** ** Grains. *)
Record core psnr (opts : list copt) (a b : gobj) : Prop := {
  c_plain : forall n, In n [$"grain_type"; $"src_id"; $"flow_id"; $"rate"; $"duration"] -> agree opts a b n;
  c_length : agree opts a b $"length" \/
    (has_type a $"event" /\ has_type b $"event" /\ exists n, In n [$"event_type"; $"topic"; $"event_data"] /\ waived opts (path n));
  c_times : forall n, In n [$"origin_timestamp"; $"sync_timestamp"; $"creation_timestamp"] -> times_agree opts a b n;
  c_labels : waived opts (path $"timelabels") \/
    exists d e, labels a = Ok d /\ labels b = Ok e /\ lists_agree opts (dicts_agree opts) (path $"timelabels") d e;
  c_type : forall t u, getattr a $"grain_type" = Ok t -> getattr b $"grain_type" = Ok u -> py_eq t u = true -> same_type psnr t opts a b }.
Lemma type_is_eq v s : type_is v s = true <-> v = PStr s.
Proof.
  unfold type_is. split; [|intros ->; apply zlist_eqb_refl].
  destruct v; cbn [py_eq as_q]; try discriminate. intros H. apply zlist_eqb_eq in H. congruence.
Qed.
Lemma py_eq_text v s : py_eq (PStr s) v = true -> v = PStr s.
Proof. destruct v; cbn [py_eq as_q]; try discriminate. intros H. apply zlist_eqb_eq in H. congruence. Qed.
Definition six : list str := [$"grain_type"; $"src_id"; $"flow_id"; $"rate"; $"duration"; $"length"].
Definition normal (opts : list copt) : list copt := if has_include opts then opts else opts ++ [Exclude $"creation_timestamp"].
Lemma agree_ex opts a b n : (waived opts (path n) \/ exists x y, getattr a n = Ok x /\ getattr b n = Ok y /\ py_eq x y = true) <-> agree opts a b n.
Proof. unfold agree, same_attr. tauto. Qed.
Lemma not_length n : In n [$"grain_type"; $"src_id"; $"flow_id"; $"rate"; $"duration"] -> zlist_eqb (path n) (path $"length") = false.
Proof. intros H. repeat (destruct H as [<-|H]; [reflexivity|]). destruct H. Qed.
Lemma singleton c : all_agree [c] = (r_equal c || excluded c).
Proof. apply andb_true_r. Qed.
Lemma or_none_same o n v : getattr_or_none o n = Ok v <-> getattr o n = Ok v \/ getattr o n = Err EAttr /\ v = PNone.
Proof.
  unfold getattr_or_none. destruct (getattr o n) as [w|e].
  - split; [auto|intros [H|[H _]]; [auto|discriminate H]].
  - destruct e; split; intros H; try discriminate H; try (destruct H as [H|[H _]]; discriminate H).
    + right. split; auto. apply Ok_eq in H. auto.
    + destruct H as [H|[_ ->]]; [discriminate H|reflexivity].
Qed.
Lemma children_core psnr opts a b o' l : payload_ok a -> payload_ok b -> grain_children psnr opts a b = Ok (o', l) ->
  all_agree l = true <-> core psnr (normal opts) a b.
Proof.
  intros Pa Pb H. unfold grain_children in H. fold (normal opts) in H. set (O := normal opts) in *.
  apply rbind_ok in H as (basic & Hbasic & H). apply rbind_ok in H as (times & Htimes & H).
  apply rbind_ok in H as (la & Hla & H). apply rbind_ok in H as (lb & Hlb & H). apply rbind_ok in H as (tl & Htl & H).
  apply rbind_ok in H as (ta & Hta & H). apply rbind_ok in H as (tb & Htb & H). cbv zeta in H.
  destruct (ordered_agree _ _ _ _ _ _ _ _ (mapping_child O) Htl) as (Itl & Otl & Etl).
  assert (LAB : r_equal tl || excluded tl = true <-> (waived O (path $"timelabels") \/
    exists d e, labels a = Ok d /\ labels b = Ok e /\ lists_agree O (dicts_agree O) (path $"timelabels") d e)).
  { unfold excluded. rewrite Itl, Otl, (or_waived _ _ _ _ Etl). split; (intros [W|W]; [left; auto|right]); [exists la, lb; auto|].
    destruct W as (d & e & E1 & E2 & W). rewrite Hla in E1. rewrite Hlb in E2. apply Ok_eq in E1. apply Ok_eq in E2. congruence. }
  (* the common children, with or without the length *)
  assert (COM : forall skip, (forall n, In n [$"origin_timestamp"; $"sync_timestamp"; $"creation_timestamp"; $"timelabels"] -> skip (path n) = false) ->
    skipping skip (basic ++ times ++ [tl]) = true <->
    ((forall n, In n six -> skip (path n) = true \/ agree O a b n) /\
     (forall n, In n [$"origin_timestamp"; $"sync_timestamp"; $"creation_timestamp"] -> times_agree O a b n) /\
     (waived O (path $"timelabels") \/ exists d e, labels a = Ok d /\ labels b = Ok e /\ lists_agree O (dicts_agree O) (path $"timelabels") d e))).
  { intros skip S. rewrite !skipping_app, !andb_true_iff. rewrite (equalities_agree skip _ _ _ _ _ _ Hbasic).
    rewrite (instants_agree skip O [$"origin_timestamp"; $"sync_timestamp"; $"creation_timestamp"] a b times); [|intros n Hn; apply S; cbn [In] in *; tauto|exact Htimes].
    cbn [skipping forallb]. rewrite andb_true_r. rewrite Itl. rewrite S by (cbn [In]; tauto). cbn [orb]. rewrite LAB. fold six.
    split; (intros (A & B & C); split; [|split; auto]); intros n Hn; specialize (A n Hn); rewrite agree_ex in *; exact A. }
  assert (TY : has_type a $"event" -> ta = PStr $"event") by (unfold has_type; intros E; rewrite Hta in E; apply Ok_eq in E; exact E).
  assert (TU : forall (P : Prop), (py_eq ta tb = true -> P) <-> (forall t u, getattr a $"grain_type" = Ok t -> getattr b $"grain_type" = Ok u -> py_eq t u = true -> P)).
  { intros P. split; [intros HP t u E1 E2|intros HP E; apply (HP ta tb); auto]. rewrite Hta in E1. rewrite Htb in E2. apply Ok_eq in E1. apply Ok_eq in E2. subst. exact HP. }
  (* everything except events: the length counts *)
  assert (PLAIN : forall rest P, (~ (py_eq ta tb = true /\ ta = PStr $"event")) -> (all_agree rest = true <-> P) ->
    (P <-> (py_eq ta tb = true -> same_type psnr ta O a b)) ->
    (all_agree ((basic ++ times ++ [tl]) ++ rest) = true <-> core psnr O a b)).
  { intros rest P NE HR HP. unfold all_agree at 1. rewrite forallb_app, andb_true_iff. fold (all_agree rest). rewrite HR, HP.
    change (forallb (fun c => r_equal c || excluded c) (basic ++ times ++ [tl])) with (skipping (fun _ => false) (basic ++ times ++ [tl])).
    rewrite COM by reflexivity. split.
    - intros [(A & B & C) D]. constructor; auto.
      + intros n Hn. destruct (A n) as [F|F]; [unfold six; cbn [In] in *; tauto|discriminate F|exact F].
      + left. destruct (A $"length") as [F|F]; [unfold six; cbn [In]; tauto|discriminate F|exact F].
      + intros t u E1 E2 E3. rewrite Hta in E1. rewrite Htb in E2. apply Ok_eq in E1. apply Ok_eq in E2. subst t u. auto.
    - intros [A B C D E]. split; [split; [|split; auto]|].
      + intros n Hn. right. unfold six in Hn. cbn [In] in Hn. destruct Hn as [H1|[H1|[H1|[H1|[H1|[H1|[]]]]]]]; try (apply A; cbn [In]; tauto).
        subst n. destruct B as [B|(B1 & B2 & _)]; auto. exfalso. apply NE. split; [|auto]. rewrite (TY B1). unfold has_type in B2. rewrite Htb in B2. apply Ok_eq in B2.
        rewrite B2. reflexivity.
      + intros F. apply (E ta tb); auto. }
  destruct (py_eq ta tb) eqn:Eq; cbn [negb] in H.
  2: { apply Ok_eq in H. assert (E2 : l = (basic ++ times ++ [tl]) ++ [failing data_path (O ++ [Exclude $"data"]) (Some $"data") None]) by congruence. subst l.
       apply (PLAIN _ True); [intros [F _]; discriminate F| |split; [intros _ F; discriminate F|auto]].
       split; auto. intros _. rewrite singleton. unfold excluded. cbn [failing r_opts r_id]. unfold excluded_by. rewrite existsb_app. cbn [existsb excludes Exclude].
       fold data_path. rewrite zlist_eqb_refl. cbn [orb]. rewrite !orb_true_r. reflexivity. }
  destruct (type_is ta $"event") eqn:T1.
  { apply type_is_eq in T1. subst ta. apply py_eq_text in Eq as Etb. subst tb.
    apply rbind_ok in H as (le & Hle & H). apply rbind_ok in H as (ea & Hea & H). apply rbind_ok in H as (eb & Heb & H). apply rbind_ok in H as (e & He & H).
    cbv zeta in H. apply Ok_eq in H.
    destruct (ordered_agree _ _ _ _ _ _ _ _ (mapping_child O) He) as (Ie & Oe & Ee).
    assert (SK : existsb (fun c => excluded c) (le ++ [e]) = true <-> exists n, In n [$"event_type"; $"topic"; $"event_data"] /\ waived O (path n)).
    { cbn [equalities] in Hle. apply rbind_ok in Hle as (x1 & _ & Hle). apply rbind_ok in Hle as (y1 & _ & Hle). apply rbind_ok in Hle as (r1 & Hr1 & Hle).
      apply rbind_ok in Hr1 as (x2 & _ & Hr1). apply rbind_ok in Hr1 as (y2 & _ & Hr1). apply rbind_ok in Hr1 as (r2 & Hr2 & Hr1). apply Ok_eq in Hr2. subst r2.
      apply Ok_eq in Hr1. subst r1. apply Ok_eq in Hle. subst le. cbn [app existsb]. unfold excluded. cbn [equality r_opts r_id]. rewrite Ie, Oe.
      rewrite !orb_true_iff, !excluded_waived. split.
      - intros [W|[W|[W|W]]]; [exists $"event_type"|exists $"topic"|exists $"event_data"|discriminate W]; (split; [cbn [In]; tauto|exact W]).
      - intros (n & [<-|[<-|[<-|[]]]] & W); auto. }
    assert (REST : all_agree (le ++ [e]) = true <-> same_type psnr (PStr $"event") O a b).
    { unfold all_agree. rewrite forallb_app, andb_true_iff. change (forallb (fun c => r_equal c || excluded c) le) with (skipping (fun _ => false) le).
      rewrite (equalities_agree _ _ _ _ _ _ _ Hle). fold (all_agree [e]). rewrite singleton. unfold excluded. rewrite Ie, Oe, (or_waived _ _ _ _ Ee). split.
      - intros [A B]. constructor; try (intros F; discriminate F).
        + intros _. split; [|split].
          * destruct (A $"event_type") as [F|F]; [cbn [In]; tauto|discriminate F|apply agree_ex, F].
          * destruct (A $"topic") as [F|F]; [cbn [In]; tauto|discriminate F|apply agree_ex, F].
          * destruct B as [B|B]; [left; auto|right]. exists ea, eb. auto.
        + intros F. exfalso. apply F. cbn [known_types map In]. tauto.
      - intros [A _ _ _ _ _]. destruct (A eq_refl) as (A1 & A2 & A3). split.
        + intros n [<-|[<-|[]]]; right; apply agree_ex; auto.
        + destruct A3 as [A3|(d & d' & E1 & E2 & A3)]; [left; auto|right]. rewrite Hea in E1. rewrite Heb in E2. apply Ok_eq in E1. apply Ok_eq in E2. subst. exact A3. }
    destruct (existsb (fun c => excluded c) (le ++ [e])) eqn:X.
    - assert (E2 : l = map exclude_length (basic ++ times ++ [tl]) ++ le ++ [e]) by congruence. subst l. clear H.
      unfold all_agree. rewrite forallb_app, andb_true_iff. fold (all_agree (map exclude_length (basic ++ times ++ [tl]))). fold (all_agree (le ++ [e])).
      rewrite REST, skipping_length, COM by (intros n Hn; repeat (destruct Hn as [<-|Hn]; [reflexivity|]); destruct Hn). split.
      + intros [(A & B & C) D]. constructor; auto.
        * intros n Hn. destruct (A n) as [F|F]; [unfold six; cbn [In] in *; tauto| |exact F]. rewrite (not_length n Hn) in F. discriminate F.
        * right. split; [exact Hta|]. split; [exact Htb|]. apply SK. reflexivity.
        * intros t u E1 E2 E3. rewrite Hta in E1. apply Ok_eq in E1. subst t. exact D.
      + intros [A B C D E]. split; [split; [|split; auto]|apply (E _ _ Hta Htb Eq)].
        intros n Hn. unfold six in Hn. cbn [In] in Hn. destruct Hn as [H1|[H1|[H1|[H1|[H1|[H1|[]]]]]]]; try (right; apply A; cbn [In]; tauto).
        subst n. left. apply zlist_eqb_refl.
    - assert (E2 : l = (basic ++ times ++ [tl]) ++ le ++ [e]) by congruence. subst l. clear H.
      unfold all_agree at 1. rewrite forallb_app, andb_true_iff. fold (all_agree (le ++ [e])). rewrite REST.
      change (forallb (fun c => r_equal c || excluded c) (basic ++ times ++ [tl])) with (skipping (fun _ => false) (basic ++ times ++ [tl])).
      rewrite COM by reflexivity. split.
      + intros [(A & B & C) D]. constructor; auto.
        * intros n Hn. destruct (A n) as [F|F]; [unfold six; cbn [In] in *; tauto|discriminate F|exact F].
        * left. destruct (A $"length") as [F|F]; [unfold six; cbn [In]; tauto|discriminate F|exact F].
        * intros t u E1 E2 E3. rewrite Hta in E1. apply Ok_eq in E1. subst t. exact D.
      + intros [A B C D E]. split; [split; [|split; auto]|apply (E _ _ Hta Htb Eq)].
        intros n Hn. right. unfold six in Hn. cbn [In] in Hn. destruct Hn as [H1|[H1|[H1|[H1|[H1|[H1|[]]]]]]]; try (apply A; cbn [In]; tauto).
        subst n. destruct B as [B|(_ & _ & B)]; auto. apply SK in B. discriminate B. }
  assert (NE : ~ (true = true /\ ta = PStr $"event")).
  { intros [_ F]. subst ta. unfold type_is in T1. cbn [py_eq] in T1. rewrite zlist_eqb_refl in T1. discriminate T1. }
  assert (NT : forall s, type_is ta s = false -> ta <> PStr s).
  { intros s F G. subst ta. unfold type_is in F. cbn [py_eq] in F. rewrite zlist_eqb_refl in F. discriminate F. }
  (* equal attributes and the payload *)
  assert (TWO : forall names le d, equalities getattr O names a b = Ok le ->
    all_agree (le ++ [d]) = true <-> (forall n, In n names -> agree O a b n) /\ r_equal d || excluded d = true).
  { intros names le d Hle. unfold all_agree. rewrite forallb_app, andb_true_iff. change (forallb (fun c => r_equal c || excluded c) le) with (skipping (fun _ => false) le).
    rewrite (equalities_agree _ _ _ _ _ _ _ Hle). fold (all_agree [d]). rewrite singleton. split; (intros [A B]; split; auto); intros n Hn; specialize (A n Hn).
    - destruct A as [A|A]; [discriminate A|apply agree_ex, A].
    - right. apply agree_ex, A. }
  destruct (type_is ta $"audio") eqn:T2.
  { apply type_is_eq in T2. subst ta. apply rbind_ok in H as (le & Hle & H). apply rbind_ok in H as ([o2 d] & Hd & H). apply Ok_eq in H.
    assert (E2 : l = (basic ++ times ++ [tl]) ++ le ++ [d]) by congruence. subst l.
    eapply PLAIN; [exact NE|apply (TWO _ _ _ Hle)|]. rewrite (format_then_agree _ _ _ _ _ _ _ _ _ Pa Pb audio_format_result Hd). split.
    - intros [A B] _. constructor; try (intros F; discriminate F).
      + intros _. split; auto. intros f F1 F2. rewrite <- audio_codes. apply B; auto.
      + intros F. exfalso. apply F. cbn [known_types map In]. tauto.
    - intros A. destruct (st_audio _ _ _ _ _ (A eq_refl) eq_refl) as [B C]. split; auto. intros f F1 F2. rewrite audio_codes. apply C; auto. }
  destruct (type_is ta $"coded_audio") eqn:T3.
  { apply type_is_eq in T3. subst ta. apply rbind_ok in H as (le & Hle & H). apply rbind_ok in H as ([o2 d] & Hd & H). apply Ok_eq in H.
    assert (E2 : l = (basic ++ times ++ [tl]) ++ le ++ [d]) by congruence. subst l.
    eapply PLAIN; [exact NE|apply (TWO _ _ _ Hle)|]. rewrite (format_then_agree _ _ _ _ _ _ _ _ _ Pa Pb audio_format_result Hd). split.
    - intros [A B] _. constructor; try (intros F; discriminate F).
      + intros _. split; auto.
      + intros F. exfalso. apply F. cbn [known_types map In]. tauto.
    - intros A. destruct (st_coded_audio _ _ _ _ _ (A eq_refl) eq_refl) as [B C]. split; auto. }
  destruct (type_is ta $"video") eqn:T4.
  { apply type_is_eq in T4. subst ta. apply rbind_ok in H as (le & Hle & H). apply rbind_ok in H as ([o2 d] & Hd & H). apply Ok_eq in H.
    assert (E2 : l = (basic ++ times ++ [tl]) ++ le ++ [d]) by congruence. subst l.
    eapply PLAIN; [exact NE|apply (TWO _ _ _ Hle)|]. rewrite (format_then_agree _ _ _ _ _ _ _ _ _ Pa Pb frame_format_result Hd). split.
    - intros [A B] _. constructor; try (intros F; discriminate F).
      + intros _. split; auto. intros f F1 F2. cbv beta. rewrite <- (video_codes f). apply B; auto.
      + intros F. exfalso. apply F. cbn [known_types map In]. tauto.
    - intros A. destruct (st_video _ _ _ _ _ (A eq_refl) eq_refl) as [B C]. split; auto. intros f F1 F2. cbv beta. rewrite video_codes. exact (C f F1 F2). }
  destruct (type_is ta $"coded_video") eqn:T5.
  { apply type_is_eq in T5. subst ta. apply rbind_ok in H as (le & Hle & H). apply rbind_ok in H as (oa & Hoa & H). apply rbind_ok in H as (ob & Hob & H).
    apply rbind_ok in H as (u & Hu & H). apply rbind_ok in H as ([o2 d] & Hd & H). apply Ok_eq in H.
    assert (E2 : l = (basic ++ times ++ [tl]) ++ le ++ [u] ++ [d]) by congruence. subst l. clear H.
    destruct (ordered_agree _ _ _ _ _ _ _ _ (difference_child O) Hu) as (Iu & Ou & Eu).
    assert (R3 : all_agree (le ++ [u] ++ [d]) = true <->
      (forall n, In n [$"cog_frame_format"; $"coded_width"; $"coded_height"; $"origin_width"; $"origin_height"; $"is_key_frame"; $"temporal_offset"; $"cog_frame_layout"] ->
         waived O (path n) \/ same_or_none a b n) /\
      (waived O (path $"unit_offsets") \/ lists_agree O (numbers_agree O) (path $"unit_offsets") oa ob) /\ r_equal d || excluded d = true).
    { unfold all_agree. rewrite !forallb_app, !andb_true_iff. change (forallb (fun c => r_equal c || excluded c) le) with (skipping (fun _ => false) le).
      rewrite (equalities_agree _ _ _ _ _ _ _ Hle). fold (all_agree [u]). fold (all_agree [d]). rewrite !singleton.
      assert (XU : excluded u = excluded_by O (path $"unit_offsets")) by (unfold excluded; rewrite Iu, Ou; reflexivity).
      rewrite XU, (or_waived _ _ _ _ Eu).
      split; (intros (A & B & C); split; [|split; auto]); intros n Hn; specialize (A n Hn).
      - destruct A as [A|[A|(x & y & A1 & A2 & A3)]]; [discriminate A|left; auto|right]. exists x, y. rewrite <- !or_none_same. auto.
      - right. destruct A as [A|(x & y & A1 & A2 & A3)]; [left; auto|right]. exists x, y. rewrite !or_none_same. auto. }
    eapply PLAIN; [exact NE|exact R3|]. rewrite (format_then_agree _ _ _ _ _ _ _ _ _ Pa Pb frame_format_result Hd). split.
    - intros (A & B & C) _. constructor; try (intros F; discriminate F).
      + intros _. split; auto. split; auto. destruct B as [B|B]; [left; auto|right]. exists oa, ob. auto.
      + intros F. exfalso. apply F. cbn [known_types map In]. tauto.
    - intros A. destruct (st_coded_video _ _ _ _ _ (A eq_refl) eq_refl) as (B & C & D). split; auto. split; auto.
      destruct C as [C|(x & y & E1 & E2 & C)]; [left; auto|right]. rewrite Hoa in E1. rewrite Hob in E2. apply Ok_eq in E1. apply Ok_eq in E2. subst. exact C. }
  apply rbind_ok in H as (d & Hd & H). apply Ok_eq in H.
  assert (E2 : l = (basic ++ times ++ [tl]) ++ [d]) by congruence. subst l. clear H.
  destruct (data_child_agree _ _ _ _ _ _ _ Pa Pb Hd) as (_ & _ & D).
  eapply PLAIN; [exact NE|rewrite singleton; exact D|]. cbn [kind_of]. split.
  - intros A _. constructor; try (intros F; exfalso; revert F; apply NT; assumption). intros _. exact A.
  - intros A. apply (st_other _ _ _ _ _ (A eq_refl)). cbn [known_types map In].
    intros [F|[F|[F|[F|[F|[]]]]]]; symmetry in F; revert F; apply NT; assumption.
Qed.
