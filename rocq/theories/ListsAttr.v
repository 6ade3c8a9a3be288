(** Assigning the attributes, and the fields of time labels. *)
From Coq Require Import String Lia ZifyBool Znumtheory.
From Verif Require Import Base BaseProofs PyValue PyValueProofs PySlice PyList ListSpec PyListProofs JsonProofs GrainObj Lists ListsSpec EventProofs EventMain ListsProofs ListsMain BuildKw CompareSpec CompareSym.
Local Open Scope list_scope.

(** ** Assignment. *)
Lemma store_any k o d s ws : holder k o = Ok d -> NoDup (map fst d) -> Forall2 (fun v w => norm k v = Ok w) s ws -> shows_list k (store k (Some s) o) ws /\ same_but_list k o (store k (Some s) o).
Proof.
  intros H N W. unfold store. rewrite H. split.
  - exists (dset (list_key k) (PList s) d), (Some s). split; [exact (holder_put _ _ _ _ H)|]. split; [apply dset_nodup; exact N|]. split; [apply dget_set_same|]. split; [discriminate|exact W].
  - apply (put_same k _ d o H). intros f M. apply dget_set_other. exact M.
Qed.
Lemma drop_any k o d : k <> Comps -> holder k o = Ok d -> NoDup (map fst d) -> shows_list k (store k None o) [] /\ same_but_list k o (store k None o).
Proof.
  intros K H N. unfold store. rewrite H. split.
  - exists (ddel (list_key k) d), None. split; [exact (holder_put _ _ _ _ H)|]. split; [apply ddel_nodup; exact N|]. split; [apply dget_del_same; exact N|]. split; [intros X; destruct (K X)|constructor].
  - apply (put_same k _ d o H). intros f M. apply dget_del_other. exact M.
Qed.
Theorem assign_labels vs ws o d : holder Labels o = Ok d -> NoDup (map fst d) -> Forall2 (fun v w => norm Labels v = Ok w) vs ws ->
  exists o', set_labels vs o = (o', Ok PNone) /\ shows_list Labels o' ws /\ same_but_list Labels o o'.
Proof.
  intros H N F. unfold set_labels. rewrite H. destruct (store_any Labels o d [] [] H N (Forall2_nil _)) as [S B].
  destruct (sim_extend Labels vs ws F [] _ S) as (o' & l' & r & E & S' & B' & -> & ->). exists o'. split; [exact E|]. split; [exact S'|]. exact (list_same_trans _ _ _ _ _ S B B').
Qed.
Theorem assign_offsets vs o d : holder Offsets o = Ok d -> NoDup (map fst d) ->
  exists o', set_offset_list vs o = (o', Ok PNone) /\ shows_list Offsets o' (match vs with Some l => l | None => [] end) /\ same_but_list Offsets o o' /\
    (vs = None \/ vs = Some [] -> forall d', holder Offsets o' = Ok d' -> dhas $"unit_offsets" d' = false).
Proof.
  intros H N. unfold set_offset_list. rewrite H.
  assert (Z : exists o', (if dhas $"unit_offsets" d then store Offsets None o else o, Ok PNone) = (o', @Ok pv PNone) /\ shows_list Offsets o' [] /\ same_but_list Offsets o o' /\
    (forall d', holder Offsets o' = Ok d' -> dhas $"unit_offsets" d' = false)).
  { unfold dhas. destruct (dget $"unit_offsets" d) as [v|] eqn:E.
    - destruct (drop_any Offsets o d ltac:(discriminate) H N) as [A B]. exists (store Offsets None o). split; [reflexivity|]. split; [exact A|]. split; [exact B|]. intros d' D.
      unfold store in D. rewrite H, (holder_put _ _ _ _ H) in D. apply Ok_eq in D. subst d'. cbn [list_key]. rewrite dget_del_same by exact N. reflexivity.
    - exists o. split; [reflexivity|]. split; [|split; [apply list_same_refl|]].
      + exists d, None. split; [exact H|]. split; [exact N|]. split; [exact E|]. split; [discriminate|constructor].
      + intros d' D. rewrite H in D. apply Ok_eq in D. subst d'. rewrite E. reflexivity. }
  destruct vs as [[|v vs]|].
  - destruct Z as (o' & A & B & C & D). exists o'. auto.
  - destruct (store_any Offsets o d (v :: vs) (v :: vs) H N) as [A B]; [clear; induction (v :: vs); constructor; auto|]. exists (store Offsets (Some (v :: vs)) o).
    split; [reflexivity|]. split; [exact A|]. split; [exact B|]. intros [X|X]; discriminate X.
  - destruct Z as (o' & A & B & C & D). exists o'. auto.
Qed.
(** Assigning the view itself: it is emptied before it is read. *)
Theorem assign_self o l fuel : shows_list Labels o l -> exists o', set_labels_self (S fuel) o = (o', Ok PNone) /\ shows_list Labels o' [].
Proof.
  intros (d & s & H & N & _). unfold set_labels_self. rewrite H. destruct (store_any Labels o d [] [] H N (Forall2_nil _)) as [S B]. cbn [copy_loop].
  destruct (sim_get Labels 0 [] _ S) as (o1 & l1 & r & E & S1 & F & X). rewrite E. apply get_past in X; [|discriminate]. destruct X as [-> ->]. exists o1. auto.
Qed.
Theorem add_erases o l vs fuel : shows_list Labels o l -> Forall (storable Labels) vs -> exists o', add_labels (S fuel) vs o = (o', Ok PNone) /\ shows_list Labels o' [].
Proof.
  intros S V. destruct (storable_all _ _ V) as [ws W]. destruct (sim_extend Labels vs ws W l o S) as (o1 & l1 & r & E & S1 & F & -> & ->). unfold add_labels, mbind. rewrite E.
  exact (assign_self _ _ fuel S1).
Qed.
Theorem extend_loops fuel : forall o l i, shows_list Labels o l -> 0 <= i < zlen l -> exists o', copy_loop fuel i o = (o', Err EFuel).
Proof.
  induction fuel as [|fuel IH]; intros o l i S I; cbn [copy_loop]; [exists o; reflexivity|].
  destruct (split_at l i I) as (a & x & b & -> & L). destruct (sim_get Labels i _ o S) as (o1 & l1 & r & E & S1 & F & X). rewrite E. rewrite <- L in X. apply get_here in X. destruct X as [-> ->].
  assert (K : norm Labels x = Ok x). { apply shown_norm in S. apply Forall_app in S. destruct S as [_ S]. exact (Forall_inv S). }
  destruct (sim_append Labels x x _ K o1 S1) as (o2 & l2 & r2 & E2 & S2 & F2 & -> & ->). unfold mbind. rewrite E2.
  apply (IH o2 _ (i + 1) S2). rewrite zlen_app'. change (zlen [x]) with 1. lia.
Qed.

(** ** Time labels. *)
(** A time label: what its attributes read. *)
Definition label_reads (d : dict) (tag count rate drop : pv) : Prop := label_tag d = Ok tag /\ label_count d = Ok count /\ label_rate d = Ok rate /\ label_drop d = Ok drop.
Lemma frac_parts n d a b : frac n d = Ok (PFrac a b) -> 0 < b /\ Z.gcd a b = 1.
Proof.
  unfold frac. destruct (Z.eqb_spec d 0); [discriminate|]. intros H. apply Ok_eq in H. injection H. intros <- <-.
  assert (G : 0 < Z.gcd n d) by (pose proof (Z.gcd_nonneg n d); destruct (Z.eq_dec (Z.gcd n d) 0) as [E|E]; [apply Z.gcd_eq_0_r in E; lia|lia]).
  destruct (Z.gcd_divide_l n d) as [x X]. destruct (Z.gcd_divide_r n d) as [y Y].
  assert (R : Z.gcd x y = 1).
  { pose proof (Z.gcd_div_gcd n d (Z.gcd n d) ltac:(lia) eq_refl) as Q. replace (n / Z.gcd n d) with x in Q; [replace (d / Z.gcd n d) with y in Q; [exact Q|]|];
      apply Z.div_unique_exact; lia. }
  set (g := Z.gcd n d) in *. clearbody g.
  assert (Q : forall z, Z.sgn d * (z * g) / g = Z.sgn d * z) by (intros z; rewrite Z.mul_assoc; apply Z.div_mul; lia).
  replace (Z.sgn d * n) with (Z.sgn d * (x * g)) by congruence. replace (Z.sgn d * d / g) with (Z.sgn d * (y * g) / g) by congruence. rewrite !Q. clear Q. subst n.
  destruct (Z.lt_trichotomy d 0) as [L|[L|L]]; [|lia|].
  - rewrite (Z.sgn_neg d L). change (-1) with (- (1)). rewrite !Z.mul_opp_l, !Z.mul_1_l, Z.gcd_opp_l, Z.gcd_opp_r. split; [nia|exact R].
  - rewrite (Z.sgn_pos d L), !Z.mul_1_l. split; [nia|exact R].
Qed.
(** A filled label has all its parts. *)
Lemma filled_parts d : fill_label d = Ok d -> exists tag t a b c e, dget $"tag" d = Some tag /\ dget $"timelabel" d = Some (PDict t) /\ dget $"frames_since_midnight" t = Some a /\
  dget $"frame_rate_numerator" t = Some b /\ dget $"frame_rate_denominator" t = Some c /\ dget $"drop_frame" t = Some e.
Proof.
  intros E. unfold fill_label, with_key in E. apply rbind_ok in E as (v & Hv & E). apply rbind_ok in E as (t & Ht & E). apply rbind_ok in E as (t' & Ht' & E).
  apply Ok_eq in E. apply Ok_eq in Ht'.
  assert (T1 : dget $"timelabel" d = Some (PDict t')) by (rewrite <- E; apply dget_set_same).
  assert (T2 : exists v, dget $"tag" d = Some v) by (rewrite <- E; rewrite dget_set_other by names; rewrite dget_default_other by names; apply default_there).
  assert (D1 : exists w, dget $"frames_since_midnight" t' = Some w) by (subst t'; rewrite !dget_default_other by names; apply default_there).
  assert (D2 : exists w, dget $"frame_rate_numerator" t' = Some w) by (subst t'; rewrite !dget_default_other by names; apply default_there).
  assert (D3 : exists w, dget $"frame_rate_denominator" t' = Some w) by (subst t'; rewrite !dget_default_other by names; apply default_there).
  assert (D4 : exists w, dget $"drop_frame" t' = Some w) by (subst t'; apply default_there).
  destruct T2 as [v2 T2], D1 as [w1 D1], D2 as [w2 D2], D3 as [w3 D3], D4 as [w4 D4]. exists v2, t', w1, w2, w3, w4. auto 10.
Qed.
Lemma parts_filled d tag t a b c e : dget $"tag" d = Some tag -> dget $"timelabel" d = Some (PDict t) -> dget $"frames_since_midnight" t = Some a ->
  dget $"frame_rate_numerator" t = Some b -> dget $"frame_rate_denominator" t = Some c -> dget $"drop_frame" t = Some e -> fill_label d = Ok d.
Proof.
  intros T2 T1 D1 D2 D3 D4. unfold fill_label, with_key. rewrite (ddefault_same _ _ _ _ T2), (ddefault_same _ _ _ _ T1). unfold ditem. rewrite T1. cbn [as_dict rbind].
  rewrite (ddefault_same _ _ _ _ D1), (ddefault_same _ _ _ _ D2), (ddefault_same _ _ _ _ D3), (ddefault_same _ _ _ _ D4). cbn [rbind]. rewrite dset_same by exact T1. reflexivity.
Qed.
Ltac label_parts H := destruct (filled_parts _ H) as (?tag & ?t & ?a & ?b & ?c & ?e & ?T & ?L & ?A & ?B & ?C & ?E).
Lemma filled_reads d : fill_label d = Ok d -> exists tag t a b c e, dget $"tag" d = Some tag /\ dget $"timelabel" d = Some (PDict t) /\ label_tag d = Ok tag /\ label_count d = Ok a /\ label_rate d = mk_frac b c /\ label_drop d = Ok e /\
  dget $"frames_since_midnight" t = Some a /\ dget $"frame_rate_numerator" t = Some b /\ dget $"frame_rate_denominator" t = Some c /\ dget $"drop_frame" t = Some e.
Proof.
  intros H. label_parts H. exists tag, t, a, b, c, e. split; [exact T|]. split; [exact L|]. unfold label_tag, label_count, label_rate, label_drop, ditem. rewrite T, L. cbn [rbind sub]. unfold ditem.
  rewrite A, B, C, E. cbn [rbind]. auto 10.
Qed.
(** Each setter changes its own attribute and no other. *)
Lemma set_tag_reads d v : fill_label d = Ok d -> exists d', put_tag v d = Ok d' /\ fill_label d' = Ok d' /\ label_tag d' = Ok v /\ label_count d' = label_count d /\ label_rate d' = label_rate d /\ label_drop d' = label_drop d.
Proof.
  intros H. label_parts H. exists (dset $"tag" v d). assert (L' : dget $"timelabel" (dset $"tag" v d) = Some (PDict t)) by (rewrite dget_set_other by names; exact L).
  split; [reflexivity|]. split; [exact (parts_filled _ _ _ _ _ _ _ (dget_set_same _ _ _) L' A B C E)|].
  unfold label_tag, label_count, label_rate, label_drop, ditem. rewrite dget_set_same, L', L. auto.
Qed.
Lemma in_label_is d t key v : dget $"timelabel" d = Some (PDict t) -> in_label key v d = Ok (dset $"timelabel" (PDict (dset key v t)) d).
Proof. intros H. unfold in_label, with_key, ditem. rewrite H. reflexivity. Qed.
Lemma set_count_reads d v z : fill_label d = Ok d -> to_int v = Ok z -> exists d', put_count v d = Ok d' /\ fill_label d' = Ok d' /\ label_count d' = Ok (PInt z) /\ label_tag d' = label_tag d /\ label_rate d' = label_rate d /\ label_drop d' = label_drop d.
Proof.
  intros H Z. label_parts H. set (t1 := dset $"frames_since_midnight" (PInt z) t). set (d' := dset $"timelabel" (PDict t1) d). exists d'. unfold put_count. rewrite Z. cbn [rbind].
  split; [exact (in_label_is _ _ _ _ L)|].
  assert (A' : dget $"frames_since_midnight" t1 = Some (PInt z)) by apply dget_set_same. assert (B' : dget $"frame_rate_numerator" t1 = Some b) by (unfold t1; rewrite dget_set_other by names; exact B).
  assert (C' : dget $"frame_rate_denominator" t1 = Some c) by (unfold t1; rewrite dget_set_other by names; exact C). assert (E' : dget $"drop_frame" t1 = Some e) by (unfold t1; rewrite dget_set_other by names; exact E).
  assert (T' : dget $"tag" d' = Some tag) by (unfold d'; rewrite dget_set_other by names; exact T). assert (L' : dget $"timelabel" d' = Some (PDict t1)) by apply dget_set_same. clearbody d' t1.
  split; [exact (parts_filled _ _ _ _ _ _ _ T' L' A' B' C' E')|].
  unfold label_tag, label_count, label_rate, label_drop, ditem. rewrite T', L', T, L. cbn [rbind sub]. unfold ditem. rewrite A', B', C', E', B, C, E. auto.
Qed.
Lemma set_drop_reads d v : fill_label d = Ok d -> exists d', put_drop v d = Ok d' /\ fill_label d' = Ok d' /\ label_drop d' = Ok (PBool (truthy v)) /\ label_tag d' = label_tag d /\ label_count d' = label_count d /\ label_rate d' = label_rate d.
Proof.
  intros H. label_parts H. set (t1 := dset $"drop_frame" (PBool (truthy v)) t). set (d' := dset $"timelabel" (PDict t1) d). exists d'. unfold put_drop.
  split; [exact (in_label_is _ _ _ _ L)|].
  assert (E' : dget $"drop_frame" t1 = Some (PBool (truthy v))) by apply dget_set_same. assert (B' : dget $"frame_rate_numerator" t1 = Some b) by (unfold t1; rewrite dget_set_other by names; exact B).
  assert (C' : dget $"frame_rate_denominator" t1 = Some c) by (unfold t1; rewrite dget_set_other by names; exact C). assert (A' : dget $"frames_since_midnight" t1 = Some a) by (unfold t1; rewrite dget_set_other by names; exact A).
  assert (T' : dget $"tag" d' = Some tag) by (unfold d'; rewrite dget_set_other by names; exact T). assert (L' : dget $"timelabel" d' = Some (PDict t1)) by apply dget_set_same. clearbody d' t1.
  split; [exact (parts_filled _ _ _ _ _ _ _ T' L' A' B' C' E')|].
  unfold label_tag, label_count, label_rate, label_drop, ditem. rewrite T', L', T, L. cbn [rbind sub]. unfold ditem. rewrite A', B', C', E', B, C, A. auto.
Qed.
Lemma set_rate_reads d v n m : fill_label d = Ok d -> mk_frac v (PInt 1) = Ok (PFrac n m) -> exists d', put_rate v d = Ok d' /\ fill_label d' = Ok d' /\ label_rate d' = Ok (PFrac n m) /\ label_tag d' = label_tag d /\ label_count d' = label_count d /\ label_drop d' = label_drop d.
Proof.
  intros H Z. assert (P : 0 < m /\ Z.gcd n m = 1). { unfold mk_frac in Z. destruct (as_q v) as [[x y]|]; [|discriminate]. cbn [as_q] in Z. exact (frac_parts _ _ _ _ Z). }
  label_parts H. set (t0 := dset $"frame_rate_numerator" (PInt n) t). set (t1 := dset $"frame_rate_denominator" (PInt m) t0). set (d0 := dset $"timelabel" (PDict t0) d). set (d' := dset $"timelabel" (PDict t1) d0). exists d'.
  unfold put_rate. rewrite Z. cbn [rbind]. rewrite (in_label_is _ _ _ _ L). cbn [rbind].
  split; [exact (in_label_is d0 t0 _ _ (dget_set_same _ _ _))|].
  assert (A' : dget $"frames_since_midnight" t1 = Some a) by (unfold t1, t0; rewrite !dget_set_other by names; exact A).
  assert (B' : dget $"frame_rate_numerator" t1 = Some (PInt n)) by (unfold t1, t0; rewrite dget_set_other by names; apply dget_set_same).
  assert (C' : dget $"frame_rate_denominator" t1 = Some (PInt m)) by apply dget_set_same.
  assert (E' : dget $"drop_frame" t1 = Some e) by (unfold t1, t0; rewrite !dget_set_other by names; exact E).
  assert (T' : dget $"tag" d' = Some tag) by (unfold d', d0; rewrite !dget_set_other by names; exact T). assert (L' : dget $"timelabel" d' = Some (PDict t1)) by apply dget_set_same. clearbody d' d0 t1 t0.
  split; [exact (parts_filled _ _ _ _ _ _ _ T' L' A' B' C' E')|].
  unfold label_tag, label_count, label_rate, label_drop, ditem. rewrite T', L', T, L. cbn [rbind sub]. unfold ditem. rewrite A', B', C', E', A, E. cbn [rbind].
  split; [apply frac_lowest; apply P|]. auto.
Qed.
(** Adding a label. *)
Theorem add_label tag count z rate n m drop o l : to_int count = Ok z -> mk_frac rate (PInt 1) = Ok (PFrac n m) -> shows_list Labels o l ->
  exists o' d, add_timelabel tag count rate drop o = (o', Ok PNone) /\ shows_list Labels o' (l ++ [PDict d]) /\ same_but_list Labels o o' /\ label_reads d tag (PInt z) (PFrac n m) (PBool (truthy drop)).
Proof.
  intros Hz Hr S. destruct (fill_label []) as [d0|] eqn:E0; [|discriminate]. pose proof (fill_ok _ _ E0) as F0.
  destruct (set_tag_reads d0 tag F0) as (d1 & P1 & F1 & T1 & _). destruct (set_count_reads d1 count z F1 Hz) as (d2 & P2 & F2 & C2 & T2 & _).
  destruct (set_rate_reads d2 rate n m F2 Hr) as (d3 & P3 & F3 & R3 & T3 & C3 & _). destruct (set_drop_reads d3 drop F3) as (d4 & P4 & F4 & D4 & T4 & C4 & R4).
  unfold add_timelabel, new_label. rewrite E0. cbn [rbind]. rewrite P1. cbn [rbind]. rewrite P2. cbn [rbind]. rewrite P3. cbn [rbind]. rewrite P4. unfold mbind, lift.
  destruct (sim_append Labels (PDict d4) (PDict d4) l) with (o := o) as (o' & l' & r & E & S' & B & -> & ->); [cbn [norm as_dict rbind]; rewrite F4; reflexivity|exact S|].
  exists o', d4. split; [exact E|]. split; [exact S'|]. split; [exact B|]. split; [congruence|]. split; [congruence|]. split; [congruence|exact D4].
Qed.
(** Editing one in place. *)
Theorem edit_at i f o l a d b d' : shows_list Labels o l -> at_index l i a (PDict d) b -> f d = Ok d' -> fill_label d' = Ok d' ->
  exists o', edit_label i f o = (o', Ok PNone) /\ shows_list Labels o' (a ++ PDict d' :: b) /\ same_but_list Labels o o'.
Proof.
  intros S X F G.
  assert (W : norm Labels (PDict d') = Ok (PDict d')) by (cbn [norm as_dict rbind]; rewrite G; reflexivity).
  assert (H : sim Labels (edit_label i f) l (fun l' r => l' = a ++ PDict d' :: b /\ r = Ok PNone)).
  { unfold edit_label. apply (sim_got Labels i (PDict d) a b l _ _ X). cbn [as_dict rbind]. rewrite F.
    eapply sim_bind with (P := fun l' r => l' = l /\ r = Ok d'); [apply sim_lift; auto| |intros ? ? [_ ?]; discriminate]. intros l' q [-> E]. apply Ok_eq in E. subst q.
    pose proof (sim_set_at Labels i (PDict d') (PDict d') a (PDict d) b l W X) as Q. unfold set_item in Q. rewrite W in Q. exact Q. }
  destruct (H o S) as (o' & l' & r & E & S' & B & -> & ->). exists o'. auto.
Qed.
Theorem edit_bad i f o l a d b e : shows_list Labels o l -> at_index l i a (PDict d) b -> f d = Err e ->
  exists o', edit_label i f o = (o', Err e) /\ shows_list Labels o' l /\ same_but_list Labels o o'.
Proof.
  intros S X F.
  assert (H : sim Labels (edit_label i f) l (fun l' r => l' = l /\ r = Err e)).
  { unfold edit_label. apply (sim_got Labels i (PDict d) a b l _ _ X). cbn [as_dict rbind]. rewrite F.
    eapply sim_bind with (P := fun l' r => l' = l /\ r = Err e); [apply sim_lift; auto|intros ? ? [_ ?]; discriminate|]. intros l' q [-> E]. split; [reflexivity|congruence]. }
  destruct (H o S) as (o' & l' & r & E & S' & B & -> & ->). exists o'. auto.
Qed.
(** Every element shown is a label. *)
Lemma shown_labels o l : shows_list Labels o l -> Forall (fun v => exists d, v = PDict d /\ fill_label d = Ok d) l.
Proof.
  intros S. apply shown_norm in S. apply Forall_forall. intros v V. rewrite Forall_forall in S. specialize (S v V). cbn [norm] in S. apply rbind_ok in S as (d & D & S). apply rbind_ok in S as (e & F & S).
  apply Ok_eq in S. subst v. cbn [as_dict] in D. apply Ok_eq in D. subst e. exists d. auto.
Qed.
Lemma shown_label o l i a v b : shows_list Labels o l -> at_index l i a v b -> exists d, v = PDict d /\ fill_label d = Ok d.
Proof. intros S [-> _]. apply shown_labels in S. apply Forall_app in S. destruct S as [_ S]. exact (Forall_inv S). Qed.
Theorem edit_count o l i a v b c z : shows_list Labels o l -> at_index l i a v b -> to_int c = Ok z ->
  exists o' d d', v = PDict d /\ edit_label i (put_count c) o = (o', Ok PNone) /\ shows_list Labels o' (a ++ PDict d' :: b) /\ same_but_list Labels o o' /\
    label_count d' = Ok (PInt z) /\ label_tag d' = label_tag d /\ label_rate d' = label_rate d /\ label_drop d' = label_drop d.
Proof.
  intros S X Z. destruct (shown_label _ _ _ _ _ _ S X) as (d & -> & F). destruct (set_count_reads d c z F Z) as (d' & P & F' & R). destruct (edit_at i (put_count c) o l a d b d' S X P F') as (o' & E & S' & B).
  exists o', d, d'. auto 10.
Qed.
Theorem edit_tag o l i a v b w : shows_list Labels o l -> at_index l i a v b ->
  exists o' d d', v = PDict d /\ edit_label i (put_tag w) o = (o', Ok PNone) /\ shows_list Labels o' (a ++ PDict d' :: b) /\ same_but_list Labels o o' /\
    label_tag d' = Ok w /\ label_count d' = label_count d /\ label_rate d' = label_rate d /\ label_drop d' = label_drop d.
Proof.
  intros S X. destruct (shown_label _ _ _ _ _ _ S X) as (d & -> & F). destruct (set_tag_reads d w F) as (d' & P & F' & R). destruct (edit_at i (put_tag w) o l a d b d' S X P F') as (o' & E & S' & B).
  exists o', d, d'. auto 10.
Qed.
Theorem edit_rate o l i a v b w n m : shows_list Labels o l -> at_index l i a v b -> mk_frac w (PInt 1) = Ok (PFrac n m) ->
  exists o' d d', v = PDict d /\ edit_label i (put_rate w) o = (o', Ok PNone) /\ shows_list Labels o' (a ++ PDict d' :: b) /\ same_but_list Labels o o' /\
    label_rate d' = Ok (PFrac n m) /\ label_tag d' = label_tag d /\ label_count d' = label_count d /\ label_drop d' = label_drop d.
Proof.
  intros S X Z. destruct (shown_label _ _ _ _ _ _ S X) as (d & -> & F). destruct (set_rate_reads d w n m F Z) as (d' & P & F' & R). destruct (edit_at i (put_rate w) o l a d b d' S X P F') as (o' & E & S' & B).
  exists o', d, d'. auto 10.
Qed.
Theorem edit_drop o l i a v b w : shows_list Labels o l -> at_index l i a v b ->
  exists o' d d', v = PDict d /\ edit_label i (put_drop w) o = (o', Ok PNone) /\ shows_list Labels o' (a ++ PDict d' :: b) /\ same_but_list Labels o o' /\
    label_drop d' = Ok (PBool (truthy w)) /\ label_tag d' = label_tag d /\ label_count d' = label_count d /\ label_rate d' = label_rate d.
Proof.
  intros S X. destruct (shown_label _ _ _ _ _ _ S X) as (d & -> & F). destruct (set_drop_reads d w F) as (d' & P & F' & R). destruct (edit_at i (put_drop w) o l a d b d' S X P F') as (o' & E & S' & B).
  exists o', d, d'. auto 10.
Qed.

(** ** What the comparison of grains (C44) and the readers take as the lists. *)
Theorem labels_shown o l : shows_list Labels o l -> exists ds, labels o = Ok ds /\ l = map PDict ds.
Proof.
  intros (d & s & H & N & G & C & F). unfold labels. unfold holder in H. cbn [section] in H. destruct (ditem $"grain" (o_meta o)) as [v|]; [|discriminate]. cbn [rbind] in *.
  destruct (as_dict v) as [g|]; [|discriminate]. cbn [rbind] in *. apply Ok_eq in H. subst g. cbn [list_key] in G. rewrite G. destruct s as [s|]; cbn [option_map as_list rbind].
  - clear - F. induction F as [|v w s l H _ (ds & E & ->)]; [exists []; auto|]. cbn [norm] in H. cbn [map_res]. apply rbind_ok in H as (d & D & H). apply rbind_ok in H as (e & X & H). apply Ok_eq in H. subst w.
    rewrite D. cbn [rbind]. rewrite X. cbn [rbind]. rewrite E. exists (e :: ds). auto.
  - exists []. inversion F. auto.
Qed.
Theorem offsets_shown o l : shows_list Offsets o l -> offsets o = Ok l.
Proof.
  intros (d & s & H & N & G & C & F). unfold offsets. unfold holder in H. cbn [section] in H. unfold field. destruct (ditem $"grain" (o_meta o)) as [v|]; [|discriminate]. cbn [rbind] in *.
  destruct v; try discriminate. cbn [as_dict rbind sub] in *. destruct (ditem $"cog_coded_frame" d0) as [f|]; [|discriminate]. cbn [rbind] in *. rewrite H. cbn [rbind]. cbn [list_key] in G. rewrite G.
  apply norm_id in F; [|discriminate]. destruct s as [s|]; cbn [option_map as_list]; subst; reflexivity.
Qed.

(** ** Slices, as a check on the definitions shared with the specification. *)
Theorem slice_items {A} (l r : list A) s : lslice l s = Ok r -> exists p, slice_positions (zlen l) s = Ok p /\ Forall2 (fun j x => lget l j = Ok x) p r.
Proof.
  unfold lslice. intros H. apply rbind_ok in H as (p & P & H). apply Ok_eq in H. subst r. exists p. split; [exact P|]. pose proof (positions_in _ _ _ (zlen_pos l) P) as F. clear P.
  induction F as [|j p J _ IH]; cbn [flat_map]; [constructor|]. destruct (split_at l j J) as (a & x & b & E & L).
  replace (zskip j l) with (x :: b) by (rewrite E, <- L, zskip_here; reflexivity). cbn [app]. constructor; [|exact IH]. apply lget_at with (a := a) (b := b). split; [exact E|left; lia].
Qed.
Theorem positions_are n s p : 0 <= n -> slice_positions n s = Ok p ->
  exists a b k, indices n s = Ok (a, b, k) /\ forall j, In j p <-> exists t, 0 <= t /\ j = a + t * k /\ (if k <? 0 then b < j else j < b).
Proof.
  intros N H. unfold slice_positions in H. apply rbind_ok in H as (((a & b) & k) & E & H). apply Ok_eq in H. subst p. exists a, b, k. split; [exact E|]. destruct (indices_in _ _ _ _ _ N E) as (K & _ & _).
  intros j. split.
  - intros J. pose proof (zrange_in _ _ _ _ K J) as R. unfold zrange in J. apply in_map_iff in J as (t & <- & _). exists (Z.of_nat t). split; [lia|]. split; [reflexivity|]. destruct (Z.ltb_spec k 0); lia.
  - intros (t & T & -> & B). unfold zrange. apply in_map_iff. exists (Z.to_nat t). split; [rewrite Z2Nat.id by exact T; reflexivity|]. apply in_seq. split; [lia|]. cbn [Nat.add]. apply Z2Nat.inj_lt; [exact T| |].
    + unfold range_len. destruct (Z.ltb_spec k 0); [destruct (Z.ltb_spec b a)|destruct (Z.ltb_spec a b)]; try apply Z.add_nonneg_nonneg; try apply Z.div_pos; lia.
    + unfold range_len. destruct (Z.ltb_spec k 0).
      * destruct (Z.ltb_spec b a); [|nia]. apply Z.lt_succ_r. apply Z.div_le_lower_bound; nia.
      * destruct (Z.ltb_spec a b); [|nia]. apply Z.lt_succ_r. apply Z.div_le_lower_bound; nia.
Qed.

(** ** Grains whose dictionaries have distinct keys show the lists that are read. *)
Lemma keys_of v d : pv_ok v -> as_dict v = Ok d -> NoDup (map fst d).
Proof. destruct v; try discriminate. intros H E. apply Ok_eq in E. subst. inversion H. assumption. Qed.
Theorem shows_labels o ds : meta_ok o -> labels o = Ok ds -> shows_list Labels o (map PDict ds).
Proof.
  intros M H. unfold labels in H. apply rbind_ok in H as (v & V & H). apply rbind_ok in H as (g & G & H).
  assert (N : NoDup (map fst g)) by (eapply keys_of; [eapply ditem_good; [exact M|exact V]|exact G]).
  assert (HH : holder Labels o = Ok g) by (unfold holder; cbn [section]; rewrite V; cbn [rbind]; rewrite G; reflexivity).
  destruct (dget $"timelabels" g) as [w|] eqn:E.
  - apply rbind_ok in H as (s & S & H). destruct w; try discriminate. apply Ok_eq in S. subst l. exists g, (Some s). split; [exact HH|]. split; [exact N|]. split; [exact E|]. split; [discriminate|].
    clear - H. revert ds H. induction s as [|x s IH]; intros ds H; cbn [map_res] in H; [apply Ok_eq in H; subst; constructor|].
    apply rbind_ok in H as (d & D & H). apply rbind_ok in H as (r & R & H). apply Ok_eq in H. subst ds. constructor; [|exact (IH _ R)].
    apply rbind_ok in D as (e & X & D). cbn [norm]. rewrite X. cbn [rbind]. rewrite D. reflexivity.
  - apply Ok_eq in H. subst ds. exists g, None. split; [exact HH|]. split; [exact N|]. split; [exact E|]. split; [discriminate|constructor].
Qed.
Theorem shows_offsets o l : meta_ok o -> offsets o = Ok l -> shows_list Offsets o l.
Proof.
  intros M H. unfold offsets in H. apply rbind_ok in H as (v & V & H). apply rbind_ok in H as (g & G & H).
  assert (N : NoDup (map fst g)) by (eapply keys_of; [eapply field_good; [exact M|exact V]|exact G]).
  assert (HH : holder Offsets o = Ok g).
  { unfold field in V. unfold holder. cbn [section]. destruct (ditem $"grain" (o_meta o)) as [w|]; [|discriminate]. cbn [rbind] in *. destruct w; try discriminate. cbn [as_dict rbind sub] in *. rewrite V. exact G. }
  destruct (dget $"unit_offsets" g) as [w|] eqn:E.
  - destruct w; try discriminate. apply Ok_eq in H. subst l0. exists g, (Some l). split; [exact HH|]. split; [exact N|]. split; [exact E|]. split; [discriminate|]. clear. induction l; constructor; auto.
  - apply Ok_eq in H. subst l. exists g, None. split; [exact HH|]. split; [exact N|]. split; [exact E|]. split; [discriminate|constructor].
Qed.
Theorem shows_comps o g l : meta_ok o -> holder Comps o = Ok g -> dget $"components" g = Some (PList l) -> shows_list Comps o l.
Proof.
  intros M H E. exists g, (Some l). split; [exact H|]. split; [|split; [exact E|split; [discriminate|clear; induction l; constructor; auto]]].
  unfold holder in H. cbn [section] in H. apply rbind_ok in H as (d & D & H). apply rbind_ok in H as (f & F & H). apply rbind_ok in D as (v & V & D).
  eapply keys_of; [|exact H]. eapply ditem_good; [|exact F]. destruct v; try discriminate. apply Ok_eq in D. subst. exact (ditem_good _ _ _ M V).
Qed.
(** Without a list of components there is nothing to operate on: every operation that looks at it raises KeyError. *)
Theorem no_components op o d : holder Comps o = Ok d -> dget $"components" d = None -> op <> LExtend [] -> do_op Comps op o = (o, Err EKey).
Proof.
  intros H N D. assert (R : raw Comps o = Ok None) by (unfold raw; rewrite H; cbn [rbind list_key]; rewrite N; reflexivity).
  assert (G : forall i, get_item Comps i o = (o, Err EKey)) by (intros i; unfold get_item, with_list; rewrite R; reflexivity).
  assert (L : len Comps o = (o, Err EKey)) by (unfold len; rewrite R; reflexivity).
  assert (I : items Comps o = (o, Err EKey)) by (unfold items, how_many; rewrite R; cbn [iter_loop]; rewrite G; reflexivity).
  assert (X : forall v, index Comps v o = (o, Err EKey)) by (intros v; unfold index, how_many; rewrite R; cbn [index_loop]; rewrite G; reflexivity).
  destruct op; cbn [do_op]; unfold get_slice, set_item, set_slice, del_item, del_slice, del_with, insert, append, pop, clear, reverse, remove, count, contains, with_list, how_many, mbind;
    rewrite ?R, ?G, ?L, ?I, ?X; try reflexivity.
  - destruct vs as [|v vs]; [congruence|]. cbn [extend]. unfold append, mbind. rewrite L. reflexivity.
  - cbn [clear_loop]. unfold pop, mbind. rewrite G. reflexivity.
Qed.
