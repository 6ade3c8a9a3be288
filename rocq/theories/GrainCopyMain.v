(** Grains in memory behave as the family they are. *)
From Coq Require Import String Lia ZifyBool.
From Verif Require Import Base BaseProofs PyValue PyValueProofs JsonProofs GrainObj BuildSpec BuildProofs GrainSet GrainSetSpec GrainSetProofs GrainSetMain GrainCopy GrainCopySpec GrainCopyProofs GrainCopyMade Event EventSpec EventProofs EventMain.
Local Open Scope list_scope.

(** ** Lists. *)
Lemma put_length {A} k (x : A) l : List.length (put_at k x l) = List.length l.
Proof. revert k. induction l as [|y l IH]; intros [|k]; cbn; congruence. Qed.
Lemma put_same {A} k (x d : A) l : (k < List.length l)%nat -> nth k (put_at k x l) d = x.
Proof. revert k. induction l as [|y l IH]; intros [|k] H; cbn in *; try lia; [reflexivity|]. apply IH. lia. Qed.
Lemma put_other {A} j k (x d : A) l : j <> k -> nth j (put_at k x l) d = nth j l d.
Proof. revert j k. induction l as [|y l IH]; intros [|j] [|k] H; cbn; try reflexivity; try congruence. apply IH. congruence. Qed.
Lemma put_map {A B} (f : A -> B) k x l : put_at k (f x) (map f l) = map f (put_at k x l).
Proof. revert k. induction l as [|y l IH]; intros [|k]; cbn; congruence. Qed.
Lemma put_in {A} k (x y : A) l : In y (put_at k x l) -> y = x \/ In y l.
Proof. revert k. induction l as [|z l IH]; intros [|k]; cbn; [tauto|tauto|intuition auto|]. intros [->|H]; [tauto|]. destruct (IH k H); tauto. Qed.
Lemma put_nth {A} k (d : A) l : put_at k (nth k l d) l = l.
Proof. revert k. induction l as [|z l IH]; intros [|k]; cbn; congruence. Qed.

(** ** An assignment sees the class and the inner dictionary only. *)
Definition local (s : slot) (x : option pv) (g : dict) : dict :=
  let hm := match sl_part s with None => g | Some k => match dget k g with Some (PDict d) => d | _ => [] end end in
  let put d := match sl_part s with None => d | Some k => dset k (PDict d) g end in
  match x with Some w => put (dset (sl_key s) w hm) | None => if dhas (sl_key s) hm then put (ddel (sl_key s) hm) else g end.
Definition at_grain (c : gclass) (outer g : dict) (d : option bytes) (w : option Z) : gobj := mkO c (dset $"grain" (PDict g) outer) d w.
Lemma put_local s x c outer g d w : put_slot s x (at_grain c outer g d w) = at_grain c outer (local s x g) d w.
Proof.
  unfold put_slot, put_home, home, local, at_grain. cbn [o_meta]. rewrite dget_set_same. unfold with_meta. cbn [o_class o_data o_wait].
  destruct x; [rewrite BuildProofs.dset_twice; reflexivity|]. destruct (dhas _ _); [rewrite BuildProofs.dset_twice; reflexivity|reflexivity].
Qed.
Lemma inner_at outer g : inner (dset $"grain" (PDict g) outer) = g.
Proof. unfold inner. rewrite dget_set_same. reflexivity. Qed.
Lemma assigns n c o v : o_class o = c -> shaped o -> dget n (sorts c) <> None -> exists s, dget n (slots c) = Some s /\
  forall o', o_class o' = c -> shaped o' -> set_attr n v o' = match sl_write s v with Ok x => Ok (put_slot s x o') | Err e => Err e end.
Proof.
  intros C S N. destruct (dget n (sorts c)) as [so|] eqn:E; [|congruence]. destruct (readable _ _ _ E) as (s & Hs & _). exists s. split; [exact Hs|]. intros o' C' S'.
  rewrite (set_slot o' n v s) by (first [rewrite C'; exact Hs|apply shaped_part; [exact S'|rewrite C'; exact (place_of _ _ _ Hs)]]). unfold write_slot. destruct (sl_write s v) as [x|e]; reflexivity.
Qed.

(** ** The relation. *)
Definition good (c : gclass) (o : gobj) : Prop := o_class o = c /\ faithful o /\ shaped o.
Definition pair_ok (s : memory) (f : family) (c : gclass) (p : handle * twin) : Prop :=
  view s (fst p) = t_obj (snd p) /\ h_cell (fst p) = t_meta (snd p) /\ (t_meta (snd p) < f_metas f)%nat /\ (t_load (snd p) < f_loads f)%nat /\
  (forall k, h_load (fst p) = Some k -> (k < List.length (m_loads s))%nat) /\ good c (t_obj (snd p)).
Definition share (ps : list (handle * twin)) : Prop := forall p q, In p ps -> In q ps -> h_load (fst p) <> None -> h_load (fst q) <> None ->
  (h_load (fst p) = h_load (fst q) <-> t_load (snd p) = t_load (snd q)).
Record agrees (c : gclass) (s : memory) (f : family) (ps : list (handle * twin)) : Prop := {
  ag_grains : m_grains s = map fst ps;
  ag_twins : f_twins f = map snd ps;
  ag_pairs : forall p, In p ps -> pair_ok s f c p;
  ag_metas : f_metas f = List.length (m_dicts s);
  ag_share : share ps }.
Lemma agrees_views c s f ps : agrees c s f ps -> views s = map t_obj (f_twins f).
Proof.
  intros A. unfold views. rewrite (ag_grains _ _ _ _ A), (ag_twins _ _ _ _ A), !map_map. apply map_ext_in. intros p I. exact (proj1 (ag_pairs _ _ _ _ A p I)).
Qed.
Lemma view_ext s s' h : cell (h_cell h) s' = cell (h_cell h) s -> (forall k, h_load h = Some k -> load k s' = load k s) -> view s' h = view s h.
Proof. intros C L. unfold view. rewrite C. destruct (h_load h) as [k|]; [cbn [option_map]; rewrite L by reflexivity|]; reflexivity. Qed.
Lemma data_pair s f c p : pair_ok s f c p -> o_data (t_obj (snd p)) = option_map (fun k => load k s) (h_load (fst p)).
Proof. intros (V & _). rewrite <- V. reflexivity. Qed.
(** A grain more. *)
Lemma agrees_more c s f ps s' f' h t : agrees c s f ps -> m_grains s' = m_grains s ++ [h] -> f_twins f' = f_twins f ++ [t] -> f_metas f' = List.length (m_dicts s') ->
  (f_metas f <= f_metas f')%nat -> (f_loads f <= f_loads f')%nat -> (List.length (m_loads s) <= List.length (m_loads s'))%nat ->
  (forall k, (k < List.length (m_dicts s))%nat -> cell k s' = cell k s) -> (forall k, (k < List.length (m_loads s))%nat -> load k s' = load k s) ->
  pair_ok s' f' c (h, t) -> (forall q, In q ps -> h_load h <> None -> h_load (fst q) <> None -> (h_load h = h_load (fst q) <-> t_load t = t_load (snd q))) -> agrees c s' f' (ps ++ [(h, t)]).
Proof.
  intros [A1 A2 A3 A4 A5] G T M LM LF LL C L P Q. constructor.
  - rewrite G, A1, map_app. reflexivity.
  - rewrite T, A2, map_app. reflexivity.
  - intros p I. apply in_app_or in I. destruct I as [I|[<-|[]]]; [|exact P]. destruct (A3 p I) as (V & E & B1 & B2 & B3 & B4). split; [|split; [exact E|split; [lia|split; [lia|split; [|exact B4]]]]].
    + rewrite <- V. apply view_ext; [apply C; lia|]. intros k K. apply L, B3, K.
    + intros k K. specialize (B3 k K). lia.
  - exact M.
  - intros p q I J. apply in_app_or in I, J. destruct I as [I|[<-|[]]], J as [J|[<-|[]]].
    + exact (A5 p q I J).
    + intros N1 N2. destruct (Q p I N2 N1) as [X Y]. split; intros E; symmetry; [apply X|apply Y]; symmetry; exact E.
    + intros N1 N2. exact (Q q J N1 N2).
    + intros _ _. split; reflexivity.
Qed.
Definition step_ok (c : gclass) (n : nat) (op : cop) : Prop :=
  (cop_index op < n)%nat /\ match op with OSet _ a _ => a <> $"grain_type" /\ dget a (sorts c) <> None | _ => True end.
Definition grown (op : cop) (n : nat) : nat := match op with OCopy _ _ | ODeep _ _ => S n | _ => n end.
Lemma copied_good c o : good c o -> good c (copied o).
Proof. intros (C & F & S). split; [exact C|]. split; [exact F|exact S]. Qed.
Lemma view_set s h : dset $"grain" (PDict (cell (h_cell h) s)) (o_meta (view s h)) = o_meta (view s h).
Proof. cbn [view o_meta]. apply BuildProofs.dset_twice. Qed.
Lemma view_inner s h : inner (o_meta (view s h)) = cell (h_cell h) s.
Proof. apply inner_at. Qed.

(** ** One step. *)
Lemma set_step c s f ps i n v : agrees c s f ps -> (i < List.length ps)%nat -> n <> $"grain_type" -> dget n (sorts c) <> None ->
  exists ps', agrees c (fst (do_cop (OSet i n v) s)) (fst (family_step (OSet i n v) f)) ps' /\ snd (do_cop (OSet i n v) s) = snd (family_step (OSet i n v) f) /\ List.length ps' = List.length ps.
Proof.
  intros A L N H. set (p := nth i ps (no_grain, nobody)). assert (I : In p ps) by (apply nth_In; exact L). pose proof (ag_pairs _ _ _ _ A p I) as P.
  assert (E1 : nth i (m_grains s) no_grain = fst p) by (rewrite (ag_grains _ _ _ _ A); exact (map_nth fst ps (no_grain, nobody) i)).
  assert (E2 : nth i (f_twins f) nobody = snd p) by (rewrite (ag_twins _ _ _ _ A); exact (map_nth snd ps (no_grain, nobody) i)).
  cbn [do_cop family_step]. rewrite E1, E2. destruct P as (V & E & B1 & B2 & B3 & (G1 & G2 & G3)). rewrite V.
  destruct (assigns n c (t_obj (snd p)) v G1 G3 H) as (sl & Hs & AS). destruct (dget n (sorts c)) as [so|] eqn:SO; [|congruence]. clear H.
  set (k := h_cell (fst p)) in *. set (g := cell k s).
  assert (ALL : forall q, In q ps -> t_meta (snd q) = k -> assign n v (t_obj (snd q)) = match sl_write sl v with Ok x => at_grain c (h_outer (fst q)) (local sl x g) (o_data (t_obj (snd q))) (o_wait (t_obj (snd q))) | Err _ => t_obj (snd q) end /\
     good c (assign n v (t_obj (snd q)))).
  { intros q J K. destruct (ag_pairs _ _ _ _ A q J) as (V' & E' & _ & _ & _ & (H1 & H2 & H3)). unfold assign. rewrite (AS _ H1 H3). assert (VE : t_obj (snd q) = at_grain c (h_outer (fst q)) g (o_data (t_obj (snd q))) (o_wait (t_obj (snd q)))).
    { rewrite <- H1, <- V'. unfold at_grain, g. rewrite <- K, <- E'. reflexivity. }
    destruct (sl_write sl v) as [x|e] eqn:W; [|split; [reflexivity|split; [exact H1|split; [exact H2|exact H3]]]]. split; [rewrite VE at 1; apply put_local|].
    pose proof (AS _ H1 H3) as SA. try rewrite W in SA. assert (PO : place_ok (o_class (t_obj (snd q))) sl) by (rewrite H1; exact (place_of _ _ _ Hs)).
    pose proof (put_differs sl x (t_obj (snd q)) H3 PO (slot_part_write _ _ _ _ _ Hs W)) as D. split; [rewrite (df_class _ _ _ _ D); exact H1|]. split; [|exact (df_shape _ _ _ _ D)].
    refine (assignment_faithful (t_obj (snd q)) n so v _ H3 H2 N _ SA). rewrite H1. exact SO. }
  rewrite (AS _ G1 G3). rewrite <- E. destruct (sl_write sl v) as [x|e] eqn:W.
  - cbn [fst snd]. exists (map (fun q => (fst q, on_metas k (assign n v) (snd q))) ps). rewrite map_length. split; [|split; reflexivity].
    assert (IN : inner (o_meta (put_slot sl x (t_obj (snd p)))) = local sl x g).
    { destruct (ALL p I (eq_sym E)) as [X _]. unfold assign in X. rewrite (AS _ G1 G3) in X. try rewrite W in X. rewrite X. apply inner_at. }
    rewrite IN. constructor.
    + cbn [m_grains]. rewrite (ag_grains _ _ _ _ A), map_map. reflexivity.
    + cbn [f_twins]. rewrite (ag_twins _ _ _ _ A), !map_map. reflexivity.
    + intros q J. apply in_map_iff in J. destruct J as (q0 & <- & J). destruct (ag_pairs _ _ _ _ A q0 J) as (V' & E' & C1 & C2 & C3 & C4). unfold pair_ok. cbn [fst snd]. unfold on_metas.
      destruct (Nat.eqb_spec (t_meta (snd q0)) k) as [Q|Q]; cbn [t_obj t_meta t_load f_metas f_loads m_loads].
      * destruct (ALL q0 J Q) as [X Y]. split; [|split; [exact E'|split; [exact C1|split; [exact C2|split; [exact C3|exact Y]]]]]. rewrite X. unfold view, cell. cbn [m_dicts]. rewrite E', Q.
        rewrite put_same by (rewrite <- (ag_metas _ _ _ _ A); rewrite <- Q; exact C1). rewrite <- V'. destruct C4 as (C4 & _). rewrite <- C4, <- V'. reflexivity.
      * split; [|split; [exact E'|split; [exact C1|split; [exact C2|split; [exact C3|exact C4]]]]]. rewrite <- V'. apply view_ext; [|reflexivity]. unfold cell. cbn [m_dicts]. apply put_other. congruence.
    + cbn [f_metas m_dicts]. rewrite put_length. exact (ag_metas _ _ _ _ A).
    + intros a b J1 J2. apply in_map_iff in J1, J2. destruct J1 as (a0 & <- & J1), J2 as (b0 & <- & J2). cbn [fst snd]. pose proof (ag_share _ _ _ _ A a0 b0 J1 J2) as X.
      unfold on_metas. destruct (Nat.eqb _ _), (Nat.eqb _ _); exact X.
  - cbn [fst snd]. exists ps. split; [|split; reflexivity]. assert (M : map (on_metas k (assign n v)) (f_twins f) = f_twins f).
    { rewrite (ag_twins _ _ _ _ A), map_map. apply map_ext_in. intros q J. unfold on_metas. destruct (Nat.eqb_spec (t_meta (snd q)) k) as [Q|Q]; [|reflexivity]. rewrite (proj1 (ALL q J Q)). destruct (snd q). reflexivity. }
    rewrite M. destruct f, A. constructor; assumption.
Qed.
Lemma poke_step c s f ps i j b : agrees c s f ps -> (i < List.length ps)%nat ->
  exists ps', agrees c (fst (do_cop (OPoke i j b) s)) (fst (family_step (OPoke i j b) f)) ps' /\ snd (do_cop (OPoke i j b) s) = snd (family_step (OPoke i j b) f) /\ List.length ps' = List.length ps.
Proof.
  intros A L. set (p := nth i ps (no_grain, nobody)). assert (I : In p ps) by (apply nth_In; exact L). pose proof (ag_pairs _ _ _ _ A p I) as P.
  assert (E1 : nth i (m_grains s) no_grain = fst p) by (rewrite (ag_grains _ _ _ _ A); exact (map_nth fst ps (no_grain, nobody) i)).
  assert (E2 : nth i (f_twins f) nobody = snd p) by (rewrite (ag_twins _ _ _ _ A); exact (map_nth snd ps (no_grain, nobody) i)).
  cbn [do_cop family_step]. rewrite E1, E2, (data_pair _ _ _ _ P). destruct (h_load (fst p)) as [l|] eqn:HL; cbn [option_map]; [|exists ps; split; [exact A|split; reflexivity]].
  destruct (j <? List.length (load l s))%nat eqn:J; [|exists ps; split; [exact A|split; reflexivity]]. cbn [fst snd].
  set (F := fun o => with_data (option_map (put_at j b) (o_data o)) (o_wait o) o). exists (map (fun q => (fst q, on_loads (t_load (snd p)) F (snd q))) ps). rewrite map_length. split; [|split; reflexivity]. constructor.
  - cbn [m_grains]. rewrite (ag_grains _ _ _ _ A), map_map. reflexivity.
  - cbn [f_twins]. rewrite (ag_twins _ _ _ _ A), !map_map. reflexivity.
  - intros q K. apply in_map_iff in K. destruct K as (q0 & <- & K). pose proof (ag_pairs _ _ _ _ A q0 K) as Q0. pose proof Q0 as (V' & E' & C1 & C2 & C3 & C4). unfold pair_ok. cbn [fst snd]. pose proof (ag_share _ _ _ _ A p q0 I K) as SH. rewrite HL in SH. pose proof (data_pair _ _ _ _ Q0) as DQ.
    assert (X : t_obj (on_loads (t_load (snd p)) F (snd q0)) = view (mkMem (m_dicts s) (put_at l (put_at j b (load l s)) (m_loads s)) (m_grains s)) (fst q0)).
    { unfold on_loads. destruct P as (_ & _ & _ & _ & PL & _). specialize (PL l HL). destruct (h_load (fst q0)) as [m|] eqn:HM.
      - specialize (SH ltac:(discriminate) ltac:(discriminate)). destruct (Nat.eqb_spec (t_load (snd q0)) (t_load (snd p))) as [Q|Q]; cbn [t_obj].
        + assert (m = l) by (symmetry in Q; apply SH in Q; congruence). subst m. unfold F. rewrite DQ. rewrite <- V'. unfold with_data, view. rewrite HM. cbn [option_map o_class o_meta o_wait]. assert (LD : load l (mkMem (m_dicts s) (put_at l (put_at j b (load l s)) (m_loads s)) (m_grains s)) = put_at j b (load l s)) by (unfold load at 1; cbn [m_loads]; apply put_same; exact PL). rewrite LD. reflexivity.
        + assert (m <> l) by (intros ->; apply Q; symmetry; apply SH; reflexivity). rewrite <- V'. symmetry. apply view_ext; [reflexivity|]. intros m' M'. rewrite HM in M'. injection M' as <-. unfold load. cbn [m_loads]. apply put_other. assumption.
      - rewrite (view_ext s) by (try reflexivity; rewrite HM; discriminate). destruct (Nat.eqb _ _); cbn [t_obj]; [|symmetry; exact V']. unfold F. rewrite DQ, V'. cbn [option_map]. unfold with_data. destruct (t_obj (snd q0)) as [c0 m0 d0 w0]. cbn [o_data o_class o_meta o_wait] in *. rewrite DQ. reflexivity. }
    assert (Y : t_meta (on_loads (t_load (snd p)) F (snd q0)) = t_meta (snd q0) /\ t_load (on_loads (t_load (snd p)) F (snd q0)) = t_load (snd q0)) by (unfold on_loads; destruct (Nat.eqb _ _); split; reflexivity).
    destruct Y as [Y1 Y2]. rewrite Y1, Y2. cbn [f_metas f_loads m_loads]. rewrite put_length. split; [symmetry; exact X|]. split; [exact E'|]. split; [exact C1|]. split; [exact C2|]. split; [exact C3|].
    unfold on_loads. destruct (Nat.eqb _ _); cbn [t_obj]; exact C4.
  - exact (ag_metas _ _ _ _ A).
  - intros a d J1 J2. apply in_map_iff in J1, J2. destruct J1 as (a0 & <- & J1), J2 as (d0 & <- & J2). cbn [fst snd]. pose proof (ag_share _ _ _ _ A a0 d0 J1 J2) as X. unfold on_loads. destruct (Nat.eqb _ _), (Nat.eqb _ _); exact X.
Qed.
Lemma same_at {A} (l : list A) k d : put_at k (nth k l d) l = l.
Proof. apply put_nth. Qed.
Lemma load_app k l b s : (k < List.length (m_loads s))%nat -> load k (mkMem l (m_loads s ++ b) (m_grains s)) = load k s.
Proof. intros H. unfold load. cbn [m_loads]. apply app_nth1. exact H. Qed.
Lemma data_step c s f ps i a : c <> KEvent -> agrees c s f ps -> (i < List.length ps)%nat ->
  exists ps', agrees c (fst (do_cop (OData i a) s)) (fst (family_step (OData i a) f)) ps' /\ snd (do_cop (OData i a) s) = snd (family_step (OData i a) f) /\ List.length ps' = List.length ps.
Proof.
  intros NE A L. set (p := nth i ps (no_grain, nobody)). assert (I : In p ps) by (apply nth_In; exact L). pose proof (ag_pairs _ _ _ _ A p I) as P.
  assert (E1 : nth i (m_grains s) no_grain = fst p) by (rewrite (ag_grains _ _ _ _ A); exact (map_nth fst ps (no_grain, nobody) i)).
  assert (E2 : nth i (f_twins f) nobody = snd p) by (rewrite (ag_twins _ _ _ _ A); exact (map_nth snd ps (no_grain, nobody) i)).
  cbn [do_cop family_step]. rewrite E1, E2. destruct P as (V & E & B1 & B2 & B3 & (G1 & G2 & G3)). rewrite V.
  assert (D : exists d w, set_data a (t_obj (snd p)) = Ok (with_data d w (t_obj (snd p)))).
  { unfold set_data. rewrite G1. destruct c; try congruence; destruct a; eexists; eexists; unfold with_data; rewrite G1; reflexivity. }
  destruct D as (d & w & D). rewrite D. cbn [with_data o_data o_wait o_meta].
  assert (IN : put_at (h_cell (fst p)) (inner (o_meta (t_obj (snd p)))) (m_dicts s) = m_dicts s) by (rewrite <- V, view_inner; unfold cell; apply same_at). rewrite IN.
  set (h := mkH (h_class (fst p)) (h_outer (fst p)) (h_cell (fst p)) (match d with Some _ => Some (List.length (m_loads s)) | None => None end) w).
  set (t := mkT (t_meta (snd p)) (f_loads f) (with_data d w (t_obj (snd p)))).
  set (s' := mkMem (m_dicts s) (match d with Some b => m_loads s ++ [b] | None => m_loads s end) (put_at i h (m_grains s))).
  set (f' := mkF (put_at i t (f_twins f)) (f_metas f) (S (f_loads f))).
  assert (LL : forall k, (k < List.length (m_loads s))%nat -> (k < List.length (m_loads s'))%nat /\ load k s' = load k s).
  { intros k K. unfold load, s'. cbn [m_loads]. destruct d; [rewrite app_length; cbn; split; [lia|apply app_nth1; exact K]|split; [exact K|reflexivity]]. }
  assert (T : pair_ok s' f' c (h, t)).
  { split; [|split; [exact E|split; [exact B1|split; [cbn; lia|split; [|split; [exact G1|split; [exact G2|exact G3]]]]]]].
    - unfold t. cbn [fst snd t_obj]. rewrite <- V. unfold view, with_data, h, s'. cbn [h_class h_outer h_cell h_load h_wait o_class o_meta]. destruct d as [b|]; [|reflexivity]. cbn [option_map]. unfold load. cbn [m_loads]. rewrite app_nth2, Nat.sub_diag by lia. reflexivity.
    - intros k. cbn [fst h_load h]. destruct d; [|discriminate]. intros K. injection K as <-. cbn [s' m_loads]. rewrite app_length. cbn. lia. }
  assert (Z : agrees c s' f' (put_at i (h, t) ps)).
  { constructor.
    - cbn [s' m_grains]. rewrite (ag_grains _ _ _ _ A). exact (put_map fst i (h, t) ps).
    - cbn [f' f_twins]. rewrite (ag_twins _ _ _ _ A). exact (put_map snd i (h, t) ps).
    - intros q J. apply put_in in J. destruct J as [->|J]; [exact T|]. destruct (ag_pairs _ _ _ _ A q J) as (V' & E' & C1 & C2 & C3 & C4). split; [|split; [exact E'|split; [exact C1|split; [cbn; lia|split; [|exact C4]]]]].
      + rewrite <- V'. apply view_ext; [reflexivity|]. intros k K. apply LL, C3, K.
      + intros k K. apply LL, C3, K.
    - exact (ag_metas _ _ _ _ A).
    - intros x y J1 J2. apply put_in in J1, J2.
      assert (NEW : forall q, In q ps -> h_load (fst q) <> None -> h_load h <> h_load (fst q) \/ h_load h = None).
      { intros q J N. destruct (ag_pairs _ _ _ _ A q J) as (_ & _ & _ & _ & C3 & _). cbn [h h_load]. destruct d; [left|right; reflexivity]. intros K. symmetry in K. specialize (C3 _ K). lia. }
      assert (NEWT : forall q, In q ps -> t_load t <> t_load (snd q)) by (intros q J; destruct (ag_pairs _ _ _ _ A q J) as (_ & _ & _ & C2 & _); cbn; lia).
      destruct J1 as [->|J1], J2 as [->|J2]; intros N1 N2.
      + split; reflexivity.
      + destruct (NEW y J2 N2) as [X|X]; [|cbn [fst] in N1; congruence]. pose proof (NEWT y J2). cbn [fst snd]. split; intros K; contradiction.
      + destruct (NEW x J1 N1) as [X|X]; [|cbn [fst] in N2; congruence]. pose proof (NEWT x J1). cbn [fst snd]. split; intros K; symmetry in K; contradiction.
      + exact (ag_share _ _ _ _ A x y J1 J2 N1 N2). }
  exists (put_at i (h, t) ps). rewrite put_length. destruct d as [b|]; (split; [exact Z|split; reflexivity]).
Qed.
Lemma copy_step c s f ps i now : c <> KEvent -> agrees c s f ps -> (i < List.length ps)%nat ->
  exists ps', agrees c (fst (do_cop (OCopy i now) s)) (fst (family_step (OCopy i now) f)) ps' /\ snd (do_cop (OCopy i now) s) = snd (family_step (OCopy i now) f) /\ List.length ps' = S (List.length ps).
Proof.
  intros NE A L. set (p := nth i ps (no_grain, nobody)). assert (I : In p ps) by (apply nth_In; exact L). pose proof (ag_pairs _ _ _ _ A p I) as P.
  assert (E1 : nth i (m_grains s) no_grain = fst p) by (rewrite (ag_grains _ _ _ _ A); exact (map_nth fst ps (no_grain, nobody) i)).
  assert (E2 : nth i (f_twins f) nobody = snd p) by (rewrite (ag_twins _ _ _ _ A); exact (map_nth snd ps (no_grain, nobody) i)).
  cbn [do_cop family_step]. rewrite E1, E2. pose proof (data_pair _ _ _ _ P) as DP. destruct P as (V & E & B1 & B2 & B3 & G). pose proof G as (G1 & G2 & G3). rewrite V.
  rewrite (copy_plain now (t_obj (snd p)) G2) by congruence. set (o := t_obj (snd p)) in *. cbn [fst snd].
  assert (IN : put_at (h_cell (fst p)) (inner (o_meta (copied o))) (m_dicts s) = m_dicts s) by (cbn [copied o_meta]; rewrite <- V, view_inner; unfold cell; apply same_at).
  assert (VM : dset $"grain" (PDict (cell (h_cell (fst p)) s)) (o_meta o) = o_meta o) by (rewrite <- V; apply view_set).
  unfold add_grain. rewrite IN. cbn [m_dicts m_loads m_grains]. rewrite DP. destruct (h_load (fst p)) as [k|] eqn:HL; cbn [option_map] in *.
  - assert (DC : o_data (copied o) = Some (load k s)) by (cbn [copied o_data]; rewrite DP; reflexivity). rewrite DC. set (h := mkH (o_class (copied o)) (o_meta (copied o)) (h_cell (fst p)) (Some k) (o_wait (copied o))).
    set (t := mkT (t_meta (snd p)) (t_load (snd p)) (copied o)). exists (ps ++ [(h, t)]). rewrite app_length. split; [|split; [reflexivity|cbn; lia]].
    apply (agrees_more c s f ps _ _ h t A); [reflexivity|reflexivity|exact (ag_metas _ _ _ _ A)|apply le_n|cbn; lia|apply le_n|reflexivity|reflexivity| |].
    + split; [|split; [exact E|split; [exact B1|split; [cbn; lia|split; [|exact (copied_good _ _ G)]]]]].
      * unfold t, h. cbn [fst snd t_obj]. unfold view. cbn [h_class h_outer h_cell h_load h_wait option_map]. change (cell (h_cell (fst p)) _) with (cell (h_cell (fst p)) s). cbn [copied o_meta]. rewrite VM. change (load k _) with (load k s). unfold copied. rewrite DP. reflexivity.
      * intros k' K. cbn in K. injection K as <-. exact (B3 k eq_refl).
    + intros q J _ N. change (Some k = h_load (fst q) <-> t_load (snd p) = t_load (snd q)). rewrite <- HL. apply (ag_share _ _ _ _ A p q I J); [rewrite HL; discriminate|exact N].
  - destruct (o_data (copied o)) as [b|] eqn:DC.
    + set (h := mkH (o_class (copied o)) (o_meta (copied o)) (h_cell (fst p)) (Some (List.length (m_loads s))) (o_wait (copied o))). set (t := mkT (t_meta (snd p)) (f_loads f) (copied o)). exists (ps ++ [(h, t)]). rewrite app_length. split; [|split; [reflexivity|cbn; lia]].
      apply (agrees_more c s f ps _ _ h t A); [reflexivity|reflexivity|exact (ag_metas _ _ _ _ A)|apply le_n|cbn; lia|cbn [m_loads]; rewrite app_length; lia|reflexivity|intros k K; unfold load; cbn [m_loads]; apply app_nth1; exact K| |].
      * split; [|split; [exact E|split; [exact B1|split; [cbn; lia|split; [|exact (copied_good _ _ G)]]]]].
        -- unfold t, h. cbn [fst snd t_obj]. unfold view. cbn [h_class h_outer h_cell h_load h_wait option_map]. change (cell (h_cell (fst p)) _) with (cell (h_cell (fst p)) s). unfold load. cbn [m_loads]. rewrite app_nth2, Nat.sub_diag by lia. cbn [nth].
           rewrite <- DC. cbn [copied o_meta o_data o_class o_wait]. rewrite VM. reflexivity.
        -- intros k' K. cbn in K. injection K as <-. cbn [m_loads]. rewrite app_length. cbn. lia.
      * intros q J _ N. destruct (ag_pairs _ _ _ _ A q J) as (_ & _ & _ & C2 & C3 & _). split; intros K; [symmetry in K; specialize (C3 _ K); cbn in C3; lia|cbn in K; lia].
    + set (h := mkH (o_class (copied o)) (o_meta (copied o)) (h_cell (fst p)) None (o_wait (copied o))). set (t := mkT (t_meta (snd p)) (f_loads f) (copied o)). exists (ps ++ [(h, t)]). rewrite app_length. split; [|split; [reflexivity|cbn; lia]].
      apply (agrees_more c s f ps _ _ h t A); [reflexivity|reflexivity|exact (ag_metas _ _ _ _ A)|apply le_n|cbn; lia|apply le_n|reflexivity|reflexivity| |].
      * split; [|split; [exact E|split; [exact B1|split; [cbn; lia|split; [discriminate|exact (copied_good _ _ G)]]]]].
        unfold t, h. cbn [fst snd t_obj]. unfold view. cbn [h_class h_outer h_cell h_load h_wait option_map]. change (cell (h_cell (fst p)) _) with (cell (h_cell (fst p)) s). rewrite <- DC. cbn [copied o_meta o_data o_class o_wait]. rewrite VM. reflexivity.
      * intros q J N. destruct N. reflexivity.
Qed.
Lemma deep_step c s f ps i now : c <> KEvent -> agrees c s f ps -> (i < List.length ps)%nat ->
  exists ps', agrees c (fst (do_cop (ODeep i now) s)) (fst (family_step (ODeep i now) f)) ps' /\ snd (do_cop (ODeep i now) s) = snd (family_step (ODeep i now) f) /\ List.length ps' = S (List.length ps).
Proof.
  intros NE A L. set (p := nth i ps (no_grain, nobody)). assert (I : In p ps) by (apply nth_In; exact L). pose proof (ag_pairs _ _ _ _ A p I) as P.
  assert (E1 : nth i (m_grains s) no_grain = fst p) by (rewrite (ag_grains _ _ _ _ A); exact (map_nth fst ps (no_grain, nobody) i)).
  assert (E2 : nth i (f_twins f) nobody = snd p) by (rewrite (ag_twins _ _ _ _ A); exact (map_nth snd ps (no_grain, nobody) i)).
  cbn [do_cop family_step]. rewrite E1, E2. destruct P as (V & E & B1 & B2 & B3 & G). pose proof G as (G1 & G2 & G3). rewrite V.
  rewrite (copy_plain now (t_obj (snd p)) G2) by congruence. set (o := t_obj (snd p)) in *. cbn [fst snd]. pose proof (ag_metas _ _ _ _ A) as AM.
  assert (VM : dset $"grain" (PDict (inner (o_meta o))) (o_meta o) = o_meta o) by (rewrite <- V, view_inner; apply view_set).
  set (n := List.length (m_dicts s)) in *. set (ds := put_at n (inner (o_meta (copied o))) (m_dicts s ++ [[]])).
  assert (DL : List.length ds = S n) by (unfold ds; rewrite put_length, app_length; cbn; fold n; lia).
  assert (DN : nth n ds [] = inner (o_meta o)) by (unfold ds; apply put_same; rewrite app_length; cbn; fold n; lia).
  assert (DO : forall k, (k < n)%nat -> nth k ds [] = nth k (m_dicts s) []) by (intros k K; unfold ds; rewrite put_other by lia; apply app_nth1; exact K).
  unfold add_grain. cbn [m_dicts m_loads m_grains]. fold ds. clearbody ds. destruct (o_data (copied o)) as [b|] eqn:DC.
  - set (h := mkH (o_class (copied o)) (o_meta (copied o)) n (Some (List.length (m_loads s))) (o_wait (copied o))). set (t := mkT (f_metas f) (f_loads f) (copied o)). exists (ps ++ [(h, t)]). rewrite app_length. split; [|split; [reflexivity|cbn; lia]].
    apply (agrees_more c s f ps _ _ h t A); [reflexivity|reflexivity|cbn [f_metas f_loads m_dicts m_loads]; rewrite ?app_length; lia..| | | |].
    + exact DO.
    + intros k K. unfold load. cbn [m_loads]. apply app_nth1. exact K.
    + split; [|split; [cbn; congruence|split; [cbn; lia|split; [cbn; lia|split; [|exact (copied_good _ _ G)]]]]].
      * unfold t, h. cbn [fst snd t_obj]. unfold view. cbn [h_class h_outer h_cell h_load h_wait option_map]. unfold cell, load. cbn [m_dicts m_loads]. rewrite DN, app_nth2, Nat.sub_diag by lia. cbn [nth]. rewrite <- DC. cbn [copied o_meta o_data o_class o_wait]. rewrite VM. reflexivity.
      * intros k' K. cbn in K. injection K as <-. cbn [m_loads]. rewrite app_length. cbn. lia.
    + intros q J _ N. destruct (ag_pairs _ _ _ _ A q J) as (_ & _ & _ & C2 & C3 & _). split; intros K; [symmetry in K; specialize (C3 _ K); cbn in C3; lia|cbn in K; lia].
  - set (h := mkH (o_class (copied o)) (o_meta (copied o)) n None (o_wait (copied o))). set (t := mkT (f_metas f) (f_loads f) (copied o)). exists (ps ++ [(h, t)]). rewrite app_length. split; [|split; [reflexivity|cbn; lia]].
    apply (agrees_more c s f ps _ _ h t A); [reflexivity|reflexivity|cbn [f_metas f_loads m_dicts m_loads]; lia..| | | |].
    + exact DO.
    + intros k K. reflexivity.
    + split; [|split; [cbn; congruence|split; [cbn; lia|split; [cbn; lia|split; [discriminate|exact (copied_good _ _ G)]]]]].
      unfold t, h. cbn [fst snd t_obj]. unfold view. cbn [h_class h_outer h_cell h_load h_wait option_map]. unfold cell. cbn [m_dicts]. rewrite DN. rewrite <- DC. cbn [copied o_meta o_data o_class o_wait]. rewrite VM. reflexivity.
    + intros q J N. destruct N. reflexivity.
Qed.
Lemma steps c : c <> KEvent -> forall ops s f ps, agrees c s f ps -> cops_ok c (List.length ps) ops ->
  views (fst (do_cops ops s)) = map t_obj (f_twins (fst (family_steps ops f))) /\ snd (do_cops ops s) = snd (family_steps ops f).
Proof.
  intros NE. induction ops as [|op ops IH]; intros s f ps A K; [split; [exact (agrees_views _ _ _ _ A)|reflexivity]|]. destruct K as (K1 & K2 & K3).
  assert (X : exists ps', agrees c (fst (do_cop op s)) (fst (family_step op f)) ps' /\ snd (do_cop op s) = snd (family_step op f) /\ List.length ps' = grown op (List.length ps)).
  { destruct op; cbn [cop_index grown] in *; [destruct K2; apply set_step|apply data_step|apply poke_step|apply copy_step|apply deep_step]; assumption. }
  destruct X as (ps' & A' & R & LE). change (cops_ok c (grown op (List.length ps)) ops) in K3. rewrite <- LE in K3. specialize (IH _ _ _ A' K3). cbn [do_cops family_steps].
  destruct (do_cop op s) as [s1 r1], (family_step op f) as [f1 r2]. cbn [fst snd] in *. destruct (do_cops ops s1) as [s2 rs], (family_steps ops f1) as [f2 rs']. cbn [fst snd] in *. destruct IH as [I1 I2]. split; [exact I1|]. congruence.
Qed.
Lemma starts o : faithful o -> shaped o -> exists ps, agrees (o_class o) (alone o) (one o) ps /\ List.length ps = 1%nat.
Proof.
  intros F S. pose proof S as (g & G & _). assert (VM : dset $"grain" (PDict (inner (o_meta o))) (o_meta o) = o_meta o) by (unfold inner; rewrite G; apply dset_same; exact G).
  unfold alone, one. destruct (o_data o) as [b|] eqn:D; (eexists [(_, _)]; split; [|reflexivity]); (constructor; [reflexivity|reflexivity| |reflexivity|]).
  - intros p [<-|[]]. split; [|split; [reflexivity|split; [cbn; lia|split; [cbn; lia|split; [intros k K; cbn in K; injection K as <-; cbn; lia|split; [reflexivity|split; [exact F|exact S]]]]]]].
    cbn [fst snd t_obj]. unfold view. cbn [h_class h_outer h_cell h_load h_wait option_map]. unfold cell, load. cbn [m_dicts m_loads nth]. rewrite VM, <- D. destruct o; reflexivity.
  - intros p q [<-|[]] [<-|[]] _ _. split; reflexivity.
  - intros p [<-|[]]. split; [|split; [reflexivity|split; [cbn; lia|split; [cbn; lia|split; [discriminate|split; [reflexivity|split; [exact F|exact S]]]]]]].
    cbn [fst snd t_obj]. unfold view. cbn [h_class h_outer h_cell h_load h_wait option_map]. unfold cell, load. cbn [m_dicts m_loads nth]. rewrite VM, <- D. destruct o; reflexivity.
  - intros p q [<-|[]] [<-|[]] _ _. split; reflexivity.
Qed.
Theorem copies_are_family o ops : faithful o -> shaped o -> o_class o <> KEvent -> cops_ok (o_class o) 1 ops ->
  views (fst (do_cops ops (alone o))) = map t_obj (f_twins (fst (family_steps ops (one o)))) /\ snd (do_cops ops (alone o)) = snd (family_steps ops (one o)).
Proof. intros F S N K. destruct (starts o F S) as (ps & A & L). apply (steps (o_class o) N ops _ _ ps A). rewrite L. exact K. Qed.

(** ** Events. *)
Theorem copy_event now o p : faithful o -> o_class o = KEvent -> shows o p -> payload_json_ok p -> Forall (fun e : entry => e $"path" <> None) (p_entries p) ->
  exists o' p', copy_obj now o = Ok o' /\ shows o' p' /\ same_payload p p' /\ same_but_payload (mkO KEvent (o_meta o) None None) o'.
Proof.
  intros [C H] K S J N. specialize (H now). destruct (data_text o p K S J) as (b & D & T & _). set (o0 := mkO KEvent (o_meta o) None None). assert (S0 : shows o0 p) by exact S.
  destruct (text_read b p o0 p T N S0) as (o' & p' & A & S' & SP & SB). exists o', p'. split; [|auto]. unfold copy_obj. rewrite D. cbn [rbind arg_of_data]. unfold GrainFactory. rewrite C. cbn [rbind]. rewrite K in *.
  rewrite construct_bytes, H. cbn [rbind]. fold o0. rewrite A. reflexivity.
Qed.
