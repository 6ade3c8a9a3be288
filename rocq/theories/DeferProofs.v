(** Proofs about the operators of deferred byte strings. *)
From Coq Require Import Setoid Lia ZifyBool ZifyNat.
From Verif Require Import Base BaseProofs PyValue PyList ListSpec PyListProofs IoBytes IoBytesSpec DeferOps DeferSpec.

(** ---------------------------------------------------------------- the order of bytes *)

Lemma before_cons c x y : before (c :: x) (c :: y) <-> before x y.
Proof.
  split.
  - intros [(d & t & E)|(p & a & b & s & t & E1 & E2 & L)].
    + cbn [app] in E. injection E as E. left. eauto.
    + right. destruct p as [|q p]; cbn [app] in *; injection E1 as E1 E1'; injection E2 as E2 E2'; [lia|].
      exists p, a, b, s, t. auto.
  - intros [(d & t & E)|(p & a & b & s & t & E1 & E2 & L)].
    + left. exists d, t. now rewrite E.
    + right. exists (c :: p), a, b, s, t. rewrite E1, E2. auto.
Qed.

Lemma before_heads a b x y : a < b -> before (a :: x) (b :: y).
Proof. intros H. right. exists [], a, b, x, y. auto. Qed.

Lemma before_heads_not a b x y : b < a -> ~ before (a :: x) (b :: y).
Proof.
  intros H [(d & t & E)|(p & c & d & s & t & E1 & E2 & L)].
  - cbn [app] in E. injection E. lia.
  - destruct p as [|q p]; cbn [app] in *; injection E1 as E1 E1'; injection E2 as E2 E2'; lia.
Qed.

Lemma before_nil y : ~ before y [].
Proof.
  intros [(d & t & E)|(p & c & d & s & t & E1 & E2 & L)]; [destruct y; discriminate E|destruct p; discriminate E2].
Qed.

Lemma lex_spec : forall x y,
  match lex x y with Eq => x = y | Lt => before x y | Gt => before y x end /\
  (lex x y = Eq <-> x = y) /\ (lex x y = Lt <-> before x y) /\ (lex x y = Gt <-> before y x).
Proof.
  induction x as [|a x IH]; intros [|b y]; cbn [lex].
  - split; [reflexivity|]. split; [tauto|]. split; split; try discriminate; intros H; destruct (before_nil _ H).
  - assert (before [] (b :: y)) by (left; exists b, y; reflexivity).
    split; [assumption|]. split; [split; discriminate|]. split; [tauto|]. split; [discriminate|]. intros N. destruct (before_nil _ N).
  - assert (before [] (a :: x)) by (left; exists a, x; reflexivity).
    split; [assumption|]. split; [split; discriminate|]. split; [|tauto]. split; [discriminate|]. intros N. destruct (before_nil _ N).
  - destruct (Z.compare_spec a b) as [E|L|L].
    + subst b. specialize (IH y). destruct IH as (I1 & I2 & I3 & I4).
      split; [destruct (lex x y); [congruence|now apply before_cons|now apply before_cons]|].
      rewrite !before_cons. split; [|tauto]. rewrite I2. split; [congruence|]. intros E. now injection E.
    + split; [now apply before_heads|]. split; [split; [discriminate|]; intros E; injection E; lia|].
      split; [split; [intros _; now apply before_heads|reflexivity]|]. split; [discriminate|].
      intros N. destruct (before_heads_not _ _ _ _ L N).
    + split; [now apply before_heads|]. split; [split; [discriminate|]; intros E; injection E; lia|].
      split; [|split; [intros _; now apply before_heads|reflexivity]]. split; [discriminate|].
      intros N. destruct (before_heads_not _ _ _ _ L N).
Qed.

Lemma op_means o x y : bytes_op o x y = true <-> meaning o x y.
Proof.
  destruct (lex_spec x y) as (H & E1 & E2 & E3). unfold bytes_op, meaning.
  destruct o; destruct (lex x y); split; intros; try discriminate; try tauto; try reflexivity; try (apply E1; reflexivity);
    try (exfalso; apply E1 in H0; discriminate); try (intros X; apply E1 in X; discriminate);
    try (exfalso; apply E2 in H0; discriminate); try (exfalso; apply E3 in H0; discriminate);
    try (exfalso; destruct H0 as [H0|H0]; [apply E2 in H0|apply E1 in H0]; discriminate);
    try (exfalso; destruct H0 as [H0|H0]; [apply E3 in H0|apply E1 in H0]; discriminate).
Qed.

Lemma swapped_means o x y : meaning (swapped o) x y <-> meaning o y x.
Proof. destruct o; cbn [swapped meaning]; split; intros; try tauto; try congruence; destruct H; auto. Qed.

(** ---------------------------------------------------------------- loading *)

Lemma put_nth h : forall i x y, nth_error h i = Some y -> nth_error (put_at h i x) i = Some x.
Proof. unfold put_at. induction h as [|z h IH]; intros [|i] x y E; cbn in *; try discriminate; [reflexivity|]. eapply IH, E. Qed.
Lemma put_other h : forall i j x y, nth_error h i = Some y -> i <> j -> nth_error (put_at h i x) j = nth_error h j.
Proof.
  unfold put_at. induction h as [|z h IH]; intros [|i] [|j] x y E N; cbn in *; try discriminate; try congruence; try reflexivity.
  eapply IH; [exact E|congruence].
Qed.
Lemma put_map {A} (f : iobytes -> A) h : forall i x y, nth_error h i = Some y -> f x = f y -> map f (put_at h i x) = map f h.
Proof.
  unfold put_at. induction h as [|z h IH]; intros [|i] x y E F; cbn in *; try discriminate.
  - injection E as ->. now rewrite F.
  - f_equal. eapply IH; eassumption.
Qed.
Lemma put_len h i x y : nth_error h i = Some y -> List.length (put_at h i x) = List.length h.
Proof. intros E. pose proof (f_equal (@List.length unit) (put_map (fun _ => tt) h i x y E eq_refl)) as M. rewrite !map_length in M. exact M. Qed.
Lemma put_loadable h i x y : nth_error h i = Some y -> io_start x = io_start y -> io_length x = io_length y -> loadable h -> loadable (put_at h i x).
Proof.
  intros E S L H. unfold loadable in *. apply Forall_forall. intros z Z.
  assert (In (io_start z, io_length z) (map (fun x => (io_start x, io_length x)) (put_at h i x))) as I by (apply (in_map (fun x => (io_start x, io_length x))); exact Z).
  rewrite (put_map (fun x => (io_start x, io_length x)) h i x y E) in I by congruence.
  apply in_map_iff in I. destruct I as (w & W & I). injection W as W1 W2. rewrite Forall_forall in H. specialize (H w I). lia.
Qed.

Lemma fetch_ok h i : loadable h -> (i < List.length h)%nat ->
  exists h', fetch h i = (h', Ok (stands h (Defer i))) /\ unseen h h' /\ loadable h' /\ List.length h' = List.length h /\
    option_map io_object (nth_error h' i) = Some (Some (stands h (Defer i))).
Proof.
  intros HL HI. unfold fetch, stands. destruct (nth_error h i) as [x|] eqn:E; [|apply nth_error_None in E; lia].
  assert (0 <= io_start x /\ 0 <= io_length x) as [Hs Hl].
  { unfold loadable in HL. rewrite Forall_forall in HL. apply HL. eapply nth_error_In, E. }
  unfold io_get. destruct (io_object x) as [d|] eqn:O.
  - exists (put_at h i x). assert (put_at h i x = h) as ->.
    { clear - E. unfold put_at. revert i E. induction h as [|z h IH]; intros [|i] E; cbn in *; try discriminate; [congruence|]. f_equal. now apply IH. }
    rewrite E. cbn [option_map]. rewrite O. repeat split; auto.
  - unfold io_load. replace (io_start x <? 0) with false by lia. replace (io_length x <? 0) with false by lia.
    fold (region (io_data x) (io_start x) (io_length x)). set (d := region _ _ _).
    set (x' := io_put x (Some d) (io_pos x) _). exists (put_at h i x'). split; [reflexivity|].
    split; [split|].
    + intros [b|j]; cbn [stands]; [reflexivity|]. destruct (Nat.eq_dec i j) as [->|N].
      * rewrite (put_nth h j x' x E), E, O. reflexivity.
      * rewrite (put_other h i j x' x E N). reflexivity.
    + apply (put_map (fun x => (io_data x, io_pos x)) h i x' x E). reflexivity.
    + split; [apply (put_loadable h i x' x E); [reflexivity|reflexivity|exact HL]|].
      split; [apply (put_len h i x' x E)|]. rewrite (put_nth h i x' x E). reflexivity.
Qed.

Lemma unseen_refl h : unseen h h. Proof. split; reflexivity. Qed.
Lemma unseen_trans a b c : unseen a b -> unseen b c -> unseen a c.
Proof. intros [A1 A2] [B1 B2]. split; [intros x; rewrite B1; apply A1|congruence]. Qed.

Lemma method_ok h o a b : loadable h -> there h a ->
  exists h', unseen h h' /\ loadable h' /\ List.length h' = List.length h /\
    method h o a b = (h', Ok (match b with Plain y => Some (bytes_op o (stands h a) y) | Defer _ => None end)).
Proof.
  intros HL HA. unfold method. destruct a as [x|i].
  - exists h. split; [apply unseen_refl|]. split; [exact HL|]. split; [reflexivity|]. destruct b; reflexivity.
  - destruct (fetch_ok h i HL HA) as (h' & E & U & L & N & _). exists h'. split; [exact U|]. split; [exact L|]. split; [exact N|].
    rewrite E. cbn [rbind]. destruct b; reflexivity.
Qed.

(** With bytes on one side at least, the operators mean what they mean for bytes. *)
Theorem with_bytes h o a b : loadable h -> there h a -> there h b -> plain a \/ plain b ->
  says (snd (compare h o a b)) (meaning o (stands h a) (stands h b)) /\ unseen h (fst (compare h o a b)).
Proof.
  intros HL HA HB HP. unfold compare. destruct (method_ok h o a b HL HA) as (h1 & U1 & L1 & N1 & ->).
  destruct b as [y|j].
  - cbn [fst snd]. split; [|exact U1]. eexists. split; [reflexivity|]. apply op_means.
  - destruct HP as [HP|[]]. destruct a as [x|i]; [|destruct HP].
    assert (there h1 (Defer j)) as HB1 by (cbn [there] in *; lia).
    destruct (method_ok h1 (swapped o) (Defer j) (Plain x) L1 HB1) as (h2 & U2 & L2 & N2 & ->). cbn [fst snd].
    split; [|eapply unseen_trans; eassumption]. eexists. split; [reflexivity|].
    rewrite op_means, swapped_means, (proj1 U1). reflexivity.
Qed.

(** Two deferred byte strings are compared by identity only. *)
Theorem with_each_other h o i j : loadable h -> there h (Defer i) -> there h (Defer j) ->
  snd (compare h o (Defer i) (Defer j)) =
    match o with CEq => Ok (Nat.eqb i j) | CNe => Ok (negb (Nat.eqb i j)) | _ => Err EType end /\
  unseen h (fst (compare h o (Defer i) (Defer j))).
Proof.
  intros HL HA HB. unfold compare. destruct (method_ok h o (Defer i) (Defer j) HL HA) as (h1 & U1 & L1 & N1 & ->).
  assert (there h1 (Defer j)) as HB1 by (cbn [there] in *; lia).
  destruct (method_ok h1 (swapped o) (Defer j) (Defer i) L1 HB1) as (h2 & U2 & L2 & N2 & ->). cbn [fst snd].
  split; [reflexivity|eapply unseen_trans; eassumption].
Qed.

(** ---------------------------------------------------------------- items *)

Lemma item_ok h i k : loadable h -> there h (Defer i) ->
  exists h', item_at h i k = (h', lget (stands h (Defer i)) k) /\ unseen h h' /\ loadable h' /\ there h' (Defer i).
Proof.
  intros HL HI. unfold item_at. destruct (fetch_ok h i HL HI) as (h' & E & U & L & N & _). exists h'. rewrite E. cbn [rbind there] in *.
  split; [reflexivity|]. split; [exact U|]. split; [exact L|lia].
Qed.

(** Indexing, from both ends: as bytes. *)
Theorem indexing h i k : loadable h -> there h (Defer i) ->
  (forall a c b, ListSpec.at_index (stands h (Defer i)) k a c b -> snd (item_at h i k) = Ok c) /\
  (ListSpec.no_index (stands h (Defer i)) k -> snd (item_at h i k) = Err EIndex) /\ unseen h (fst (item_at h i k)).
Proof.
  intros HL HI. destruct (item_ok h i k HL HI) as (h' & E & U & _). rewrite E. cbn [fst snd].
  split; [intros a c b A; exact (PyListProofs.lget_at _ _ _ _ _ A)|]. split; [intros N; exact (PyListProofs.lget_none _ _ N)|exact U].
Qed.

Lemma lget_mid (p : bytes) c t : lget (p ++ c :: t) (zlen p) = Ok c.
Proof. apply (PyListProofs.lget_at _ _ p c t). split; [reflexivity|auto]. Qed.
Lemma lget_past (p : bytes) k : zlen p <= k -> lget p k = Err EIndex.
Proof.
  intros H. apply PyListProofs.lget_none. intros a x b [E1 [E2|E2]]; rewrite E1, zlen_app, zlen_cons in H;
    pose proof (zlen_nonneg a); pose proof (zlen_nonneg b); lia.
Qed.

Lemma items_ok i : forall t n h p, loadable h -> there h (Defer i) -> stands h (Defer i) = p ++ t -> (List.length t < n)%nat ->
  exists h', items_from n h i (zlen p) = (h', Ok t) /\ unseen h h'.
Proof.
  induction t as [|c t IH]; intros n h p HL HI E HN; (destruct n as [|n]; [cbn [List.length] in HN; lia|]); cbn [items_from].
  - destruct (item_ok h i (zlen p) HL HI) as (h1 & E1 & U1 & _). rewrite E1, E, app_nil_r, lget_past by lia. eauto.
  - destruct (item_ok h i (zlen p) HL HI) as (h1 & E1 & U1 & L1 & T1). rewrite E1, E, lget_mid.
    destruct (IH n h1 (p ++ [c]) L1 T1) as (h2 & E2 & U2).
    { rewrite (proj1 U1), E, <- app_assoc. reflexivity. }
    { cbn [List.length] in HN. lia. }
    rewrite zlen_app in E2. change (zlen [c]) with 1 in E2. rewrite E2. cbn [rbind]. exists h2. split; [reflexivity|].
    eapply unseen_trans; eassumption.
Qed.

Theorem iterating h i n : loadable h -> there h (Defer i) -> zlen (stands h (Defer i)) < Z.of_nat n ->
  snd (items_from n h i 0) = Ok (stands h (Defer i)) /\ unseen h (fst (items_from n h i 0)).
Proof.
  intros HL HI HN. destruct (items_ok i (stands h (Defer i)) n h [] HL HI eq_refl ltac:(unfold zlen in HN; lia)) as (h' & E & U).
  change (zlen (@nil Z)) with 0 in E. rewrite E. split; [reflexivity|exact U].
Qed.

(** Backwards: if the stream holds all that was promised. *)
Lemma backwards_ok i : forall n h p t, loadable h -> there h (Defer i) -> stands h (Defer i) = p ++ t -> List.length p = n ->
  exists h', items_at h i (rev (map Z.of_nat (seq 0 n))) = (h', Ok (rev p)) /\ unseen h h'.
Proof.
  induction n as [|n IH]; intros h p t HL HI E HN.
  - destruct p; [|discriminate]. exists h. split; [reflexivity|apply unseen_refl].
  - destruct (exists_last (l := p)) as (q & c & EQ); [intros ->; discriminate|]. subst p.
    rewrite app_length in HN. cbn [List.length] in HN. assert (List.length q = n) as HQ by lia.
    rewrite seq_S, map_app, rev_app_distr. cbn [map rev app items_at Nat.add].
    destruct (item_ok h i (Z.of_nat n) HL HI) as (h1 & E1 & U1 & L1 & T1). rewrite E1, E, <- app_assoc. cbn [app].
    replace (Z.of_nat n) with (zlen q) by (unfold zlen; lia). rewrite lget_mid.
    destruct (IH h1 q (c :: t) L1 T1) as (h2 & E2 & U2); [rewrite (proj1 U1), E, <- app_assoc; reflexivity|exact HQ|].
    rewrite E2. cbn [rbind]. exists h2. rewrite rev_app_distr. split; [reflexivity|eapply unseen_trans; eassumption].
Qed.

Theorem backwards h i : loadable h -> there h (Defer i) ->
  (length_of h i = zlen (stands h (Defer i)) -> snd (reversed_of h i) = Ok (rev (stands h (Defer i)))) /\
  (zlen (stands h (Defer i)) < length_of h i -> snd (reversed_of h i) = Err EIndex) /\
  (truth_of h i = true <-> length_of h i <> 0).
Proof.
  intros HL HI. split; [|split].
  - intros EN. unfold reversed_of. rewrite EN.
    destruct (backwards_ok i (Z.to_nat (zlen (stands h (Defer i)))) h (stands h (Defer i)) [] HL HI) as (h' & E & U);
      [now rewrite app_nil_r|unfold zlen; lia|]. rewrite E. reflexivity.
  - intros HN. unfold reversed_of. pose proof (zlen_nonneg (stands h (Defer i))).
    destruct (Z.to_nat (length_of h i)) as [|n] eqn:EN; [lia|].
    rewrite seq_S, map_app, rev_app_distr. cbn [map rev app items_at Nat.add].
    destruct (item_ok h i (Z.of_nat n) HL HI) as (h1 & E1 & U1 & L1 & T1). rewrite E1, lget_past by lia. reflexivity.
  - unfold truth_of. lia.
Qed.

(** ---------------------------------------------------------------- grains *)

Lemma data_eq_ok h a b : loadable h -> held_there h a -> held_there h b -> ~ (deferred a /\ deferred b) ->
  says (snd (data_eq h a b)) (held h a = held h b) /\ unseen h (fst (data_eq h a b)).
Proof.
  intros HL HA HB ND. unfold data_eq. destruct a as [[x|i]|], b as [[y|j]|]; cbn [held identical held_there deferred] in *.
  - destruct (with_bytes h CEq (Plain x) (Plain y) HL HA HB (or_introl I)) as [(v & E & V) U]. split; [|exact U].
    exists v. split; [exact E|]. rewrite V. cbn [meaning stands]. split; congruence.
  - destruct (with_bytes h CEq (Plain x) (Defer j) HL HA HB (or_introl I)) as [(v & E & V) U]. split; [|exact U].
    exists v. split; [exact E|]. rewrite V. cbn [meaning]. split; congruence.
  - split; [|apply unseen_refl]. exists false. split; [reflexivity|]. split; discriminate.
  - destruct (with_bytes h CEq (Defer i) (Plain y) HL HA HB (or_intror I)) as [(v & E & V) U]. split; [|exact U].
    exists v. split; [exact E|]. rewrite V. cbn [meaning]. split; congruence.
  - tauto.
  - destruct (fetch_ok h i HL HA) as (h' & E & U & _). rewrite E. cbn [rbind fst snd]. split; [|exact U].
    exists false. split; [reflexivity|]. split; discriminate.
  - split; [|apply unseen_refl]. exists false. split; [reflexivity|]. split; discriminate.
  - destruct (fetch_ok h j HL HB) as (h' & E & U & _). rewrite E. cbn [rbind fst snd]. split; [|exact U].
    exists false. split; [reflexivity|]. split; discriminate.
  - split; [|apply unseen_refl]. exists true. split; [reflexivity|]. tauto.
Qed.

Theorem grains_equal h g g' : loadable h -> held_there h (dg_data g) -> held_there h (dg_data g') ->
  (~ (deferred (dg_data g) /\ deferred (dg_data g')) ->
     says (snd (dgrain_eq h g g')) (same_meta g g' /\ held h (dg_data g) = held h (dg_data g'))) /\
  (forall i j, dg_data g = Some (Defer i) -> dg_data g' = Some (Defer j) ->
     says (snd (dgrain_eq h g g')) (same_meta g g' /\ i = j)) /\
  unseen h (fst (dgrain_eq h g g')).
Proof.
  intros HL HA HB. unfold dgrain_eq, same_meta. destruct (py_eq _ _) eqn:EM.
  - split; [|split].
    + intros ND. destruct (data_eq_ok h (dg_data g') (dg_data g) HL HB HA ltac:(tauto)) as [(v & E & V) _].
      exists v. split; [exact E|]. rewrite V. split; [intros X; split; [reflexivity|now symmetry]|intros [_ X]; now symmetry].
    + intros i j EI EJ. rewrite EI, EJ in *. cbn [data_eq identical]. destruct (Nat.eqb j i) eqn:EN.
      * exists true. apply Nat.eqb_eq in EN. split; [reflexivity|]. split; auto.
      * destruct (with_each_other h CEq j i HL HB HA) as [E _]. rewrite E, EN. exists false. split; [reflexivity|].
        apply Nat.eqb_neq in EN. split; [discriminate|]. intros [_ X]. congruence.
    + unfold data_eq. destruct (dg_data g') as [[x|i]|] eqn:E1, (dg_data g) as [[y|j]|] eqn:E2; cbn [identical held_there] in *;
        try apply unseen_refl.
      * apply (with_bytes h CEq (Plain x) (Defer j) HL I HA). now left.
      * apply (with_bytes h CEq (Defer i) (Plain y) HL HB I). now right.
      * destruct (Nat.eqb i j); [apply unseen_refl|]. apply (with_each_other h CEq i j HL HB HA).
      * destruct (fetch_ok h i HL HB) as (h' & E & U & _). rewrite E. exact U.
      * destruct (fetch_ok h j HL HA) as (h' & E & U & _). rewrite E. exact U.
  - split; [|split; [|apply unseen_refl]].
    + intros _. exists false. split; [reflexivity|]. split; [discriminate|]. intros [X _]. discriminate.
    + intros i j _ _. exists false. split; [reflexivity|]. split; [discriminate|]. intros [X _]. discriminate.
Qed.

(** Copies. *)
Theorem copies_equal h g : loadable h -> held_there h (dg_data g) -> same_meta g g ->
  snd (dgrain_eq h g (shallow h g)) = Ok true /\
  exists h' g', deep h g = (h', Ok g') /\ unseen h h' /\ ~ deferred (dg_data g') /\ held h' (dg_data g') = held h (dg_data g) /\
    snd (dgrain_eq h' g g') = Ok true /\ snd (dgrain_eq h' g' g) = Ok true.
Proof.
  intros HL HA HM. destruct g as [m d]. unfold shallow, deep, same_meta in *. cbn [dg_meta dg_data] in *. split.
  - unfold dgrain_eq. cbn [dg_meta dg_data]. rewrite HM. destruct d as [[x|i]|]; cbn [data_eq identical].
    + destruct (with_bytes h CEq (Plain x) (Plain x) HL I I (or_introl I)) as [(v & -> & V) _].
      f_equal. apply V. reflexivity.
    + rewrite Nat.eqb_refl. reflexivity.
    + reflexivity.
  - assert (forall h h' a a', unseen h h' -> loadable h' -> held_there h' a -> held_there h' a' -> ~ deferred a' -> held h' a = held h' a' ->
        snd (dgrain_eq h' (mkDg m a) (mkDg m a')) = Ok true /\ snd (dgrain_eq h' (mkDg m a') (mkDg m a)) = Ok true) as K.
    { clear - HM. intros h h' a a' U L A A' D E. split.
      - destruct (grains_equal h' (mkDg m a) (mkDg m a') L A A') as [G _]. cbn [dg_data] in G.
        destruct (G ltac:(tauto)) as (v & -> & V). f_equal. apply V. auto.
      - destruct (grains_equal h' (mkDg m a') (mkDg m a) L A' A) as [G _]. cbn [dg_data] in G.
        destruct (G ltac:(tauto)) as (v & -> & V). f_equal. apply V. auto. }
    destruct d as [[x|i]|].
    + exists h, (mkDg m (Some (Plain x))). split; [reflexivity|]. split; [apply unseen_refl|]. split; [intros []|]. split; [reflexivity|].
      apply (K h); auto using unseen_refl.
    + destruct (fetch_ok h i HL HA) as (h' & E & U & L & N & _). rewrite E. cbn [rbind].
      exists h', (mkDg m (Some (Plain (stands h (Defer i))))). split; [reflexivity|]. split; [exact U|]. split; [intros []|]. split; [reflexivity|].
      apply (K h); [exact U|exact L|cbn [held_there there] in *; lia|exact I|intros []|]. cbn [held]. f_equal. apply (proj1 U (Defer i)).
    + exists h, (mkDg m None). split; [reflexivity|]. split; [apply unseen_refl|]. split; [intros []|]. split; [reflexivity|].
      apply (K h); auto using unseen_refl.
Qed.
