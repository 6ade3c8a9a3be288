(** The list-like attributes: the basic operations. *)
From Coq Require Import String Lia ZifyBool.
From Verif Require Import Base BaseProofs PyValue PyValueProofs PySlice PyList ListSpec PyListProofs JsonProofs GrainObj Lists ListsSpec EventProofs.
Local Open Scope list_scope.
Ltac Zify.zify_post_hook ::= Z.div_mod_to_equations.

(** ** Storing. *)
Lemma default_there k (v : pv) d : exists w, dget k (ddefault k v d) = Some w.
Proof. rewrite dget_default_same. destruct (dget k d); eauto. Qed.
Lemma fill_ok d d' : fill_label d = Ok d' -> fill_label d' = Ok d'.
Proof.
  intros E. unfold fill_label, with_key in E. apply rbind_ok in E as (v & Hv & E). apply rbind_ok in E as (t & Ht & E). apply rbind_ok in E as (t' & Ht' & E).
  apply Ok_eq in E. apply Ok_eq in Ht'. 
  assert (T1 : dget $"timelabel" d' = Some (PDict t')) by (subst d'; apply dget_set_same).
  assert (T2 : exists v, dget $"tag" d' = Some v) by (subst d'; rewrite dget_set_other by names; rewrite dget_default_other by names; apply default_there).
  destruct T2 as [v2 T2].
  assert (D1 : exists w, dget $"frames_since_midnight" t' = Some w) by (subst t'; rewrite !dget_default_other by names; apply default_there).
  assert (D2 : exists w, dget $"frame_rate_numerator" t' = Some w) by (subst t'; rewrite !dget_default_other by names; apply default_there).
  assert (D3 : exists w, dget $"frame_rate_denominator" t' = Some w) by (subst t'; rewrite !dget_default_other by names; apply default_there).
  assert (D4 : exists w, dget $"drop_frame" t' = Some w) by (subst t'; apply default_there).
  destruct D1 as [w1 D1], D2 as [w2 D2], D3 as [w3 D3], D4 as [w4 D4]. clear E Ht'.
  unfold fill_label, with_key. rewrite (ddefault_same _ _ _ _ T2), (ddefault_same _ _ _ _ T1). unfold ditem. rewrite T1. cbn [as_dict rbind].
  rewrite (ddefault_same _ _ _ _ D1), (ddefault_same _ _ _ _ D2), (ddefault_same _ _ _ _ D3), (ddefault_same _ _ _ _ D4).
  cbn [rbind]. rewrite dset_same by exact T1. reflexivity.
Qed.
Lemma norm_norm k v w : norm k v = Ok w -> norm k w = Ok w.
Proof.
  destruct k; cbn [norm]; auto. intros H. apply rbind_ok in H. destruct H as (d & E & H). apply rbind_ok in H. destruct H as (d' & F & H). apply Ok_eq in H. subst w.
  cbn [as_dict rbind]. rewrite (fill_ok _ _ F). reflexivity.
Qed.
Lemma holder_put k d d0 o : holder k o = Ok d0 -> holder k (put_holder k d o) = Ok d.
Proof.
  unfold holder, put_holder. destruct (rbind (ditem $"grain" (o_meta o)) as_dict) as [g|e] eqn:E; [|discriminate]. intros H. cbn [o_meta]. unfold ditem. rewrite dget_set_same. cbn [rbind as_dict].
  destruct (section k) as [s|]; [|reflexivity]. rewrite dget_set_same. reflexivity.
Qed.
Lemma put_same k d d0 o : holder k o = Ok d0 -> (forall f, f <> list_key k -> dget f d = dget f d0) -> same_but_list k o (put_holder k d o).
Proof.
  intros H F. unfold same_but_list. pose proof (holder_put k d d0 o H) as P. unfold holder in H. destruct (rbind (ditem $"grain" (o_meta o)) as_dict) as [g|e] eqn:E; [|discriminate]. cbn [rbind] in H.
  assert (Q : put_holder k d o = mkO (o_class o) (dset $"grain" (PDict (match section k with None => d | Some s => dset s (PDict d) g end)) (o_meta o)) (o_data o) (o_wait o)) by (unfold put_holder; rewrite E; reflexivity).
  assert (G : ditem $"grain" (o_meta o) = Ok (PDict g)).
  { destruct (ditem $"grain" (o_meta o)) as [v|]; [|discriminate]. cbn [rbind] in E. destruct v; try discriminate. cbn [as_dict] in E. apply Ok_eq in E. subst. reflexivity. }
  split; [rewrite Q; reflexivity|]. split; [rewrite Q; reflexivity|]. split; [rewrite Q; reflexivity|]. split; [|split].
  - intros f N. rewrite Q. cbn [o_meta]. apply dget_set_other. exact N.
  - intros f N. rewrite Q. unfold field. cbn [o_meta]. rewrite G. unfold ditem. rewrite dget_set_same. cbn [rbind sub]. unfold ditem, top_name in *. destruct (section k) as [s|].
    + rewrite dget_set_other by exact N. reflexivity.
    + apply Ok_eq in H. subst d0. rewrite F by exact N. reflexivity.
  - intros d1 d2 H1 H2 f N. rewrite P in H2. apply Ok_eq in H2. subst d2. assert (d1 = d0) by (unfold holder in H1; rewrite E in H1; cbn [rbind] in H1; congruence). subst. apply F. exact N.
Qed.
Lemma store_some k o l s ws : shows_list k o l -> Forall2 (fun v w => norm k v = Ok w) s ws -> shows_list k (store k (Some s) o) ws /\ same_but_list k o (store k (Some s) o).
Proof.
  intros (d & s0 & H & N & G & C & F) W. unfold store. rewrite H. split.
  - exists (dset (list_key k) (PList s) d), (Some s). split; [exact (holder_put _ _ _ _ H)|]. split; [apply dset_nodup; exact N|]. split; [apply dget_set_same|]. split; [discriminate|exact W].
  - apply (put_same k _ d o H). intros f M. apply dget_set_other. exact M.
Qed.
Lemma store_none k o l : k <> Comps -> shows_list k o l -> shows_list k (store k None o) [] /\ same_but_list k o (store k None o).
Proof.
  intros K (d & s0 & H & N & G & C & F). unfold store. rewrite H. split.
  - exists (ddel (list_key k) d), None. split; [exact (holder_put _ _ _ _ H)|]. split; [apply ddel_nodup; exact N|]. split; [apply dget_del_same; exact N|]. split; [intros X; destruct (K X)|constructor].
  - apply (put_same k _ d o H). intros f M. apply dget_del_other. exact M.
Qed.
Lemma list_same_refl k o : same_but_list k o o.
Proof. split; [|split; [|split; [|split; [|split]]]]; try reflexivity; auto. intros d d' A B. rewrite A in B. apply Ok_eq in B. subst. auto. Qed.
Lemma list_same_trans k a b c l : shows_list k b l -> same_but_list k a b -> same_but_list k b c -> same_but_list k a c.
Proof.
  intros (d & _ & H & _) (A1 & A2 & A3 & A4 & A5 & A6) (B1 & B2 & B3 & B4 & B5 & B6). split; [congruence|]. split; [congruence|]. split; [congruence|]. split; [|split].
  - intros f N. rewrite B4, A4 by exact N. reflexivity.
  - intros f N. rewrite B5, A5 by exact N. reflexivity.
  - intros d1 d2 H1 H2 f N. rewrite (B6 d d2 H H2 f N). apply (A6 d1 d H1 H f N).
Qed.

(** ** Actions. *)
Definition sim {A} (k : lkind) (m : act A) (l : list pv) (P : list pv -> res A -> Prop) : Prop :=
  forall o, shows_list k o l -> exists o' l' r, m o = (o', r) /\ shows_list k o' l' /\ same_but_list k o o' /\ P l' r.
Lemma sim_weak {A} k (m : act A) l (P Q : list pv -> res A -> Prop) : sim k m l P -> (forall l' r, P l' r -> Q l' r) -> sim k m l Q.
Proof. intros H W o S. destruct (H o S) as (o' & l' & r & E & S' & F & X). exists o', l', r. auto. Qed.
Lemma sim_bind {A B} k (m : act A) (f : A -> act B) l (P : list pv -> res A -> Prop) (Q : list pv -> res B -> Prop) : sim k m l P -> (forall l' a, P l' (Ok a) -> sim k (f a) l' Q) -> (forall l' e, P l' (Err e) -> Q l' (Err e)) -> sim k (mbind m f) l Q.
Proof.
  intros H G W o S. destruct (H o S) as (o' & l' & r & E & S' & F & X). unfold mbind. rewrite E. destruct r as [a|e].
  - destruct (G l' a X o' S') as (o2 & l2 & r2 & E2 & S2 & F2 & X2). exists o2, l2, r2. split; [exact E2|]. split; [exact S2|]. split; [exact (list_same_trans _ _ _ _ _ S' F F2)|exact X2].
  - exists o', l', (Err e). split; [reflexivity|]. split; [exact S'|]. split; [exact F|]. exact (W _ _ X).
Qed.
Lemma sim_ret {A} k (a : A) l (P : list pv -> res A -> Prop) : P l (Ok a) -> sim k (ret a) l P.
Proof. intros H o S. exists o, l, (Ok a). split; [reflexivity|]. split; [exact S|]. split; [apply list_same_refl|exact H]. Qed.
Lemma sim_fail {A} k e l (P : list pv -> res A -> Prop) : P l (Err e) -> sim k (fail e) l P.
Proof. intros H o S. exists o, l, (Err e). split; [reflexivity|]. split; [exact S|]. split; [apply list_same_refl|exact H]. Qed.
Lemma sim_lift {A} k (r : res A) l (P : list pv -> res A -> Prop) : P l r -> sim k (lift r) l P.
Proof. intros H o S. exists o, l, r. split; [reflexivity|]. split; [exact S|]. split; [apply list_same_refl|exact H]. Qed.
Lemma sim_put k l s ws (P : list pv -> res pv -> Prop) : Forall2 (fun v w => norm k v = Ok w) s ws -> P ws (Ok PNone) -> sim k (put_list k (Some s)) l P.
Proof. intros F H o S. destruct (store_some _ _ _ _ _ S F) as [A B]. exists (store k (Some s) o), ws, (Ok PNone). split; [reflexivity|]. auto. Qed.
Lemma sim_list {A} k (f : list pv -> act A) l (P : list pv -> res A -> Prop) : (forall s, Forall2 (fun v w => norm k v = Ok w) s l -> sim k (f s) l P) ->
  (k <> Comps -> l = [] -> P [] (Err EIndex)) -> sim k (with_list k f) l P.
Proof.
  intros H E o S. pose proof S as (d & s & Hd & N & G & C & F). unfold with_list, raw. rewrite Hd. cbn [rbind]. rewrite G. destruct s as [s|]; cbn [option_map as_list rbind].
  - exact (H s F o S).
  - assert (K : k <> Comps) by (intros X; apply (C X); reflexivity). assert (absent k = EIndex) by (destruct k; try reflexivity; congruence).
    assert (l = []) by (inversion F; reflexivity). subst l. exists o, [], (Err EIndex). rewrite H0. split; [reflexivity|]. split; [exact S|]. split; [apply list_same_refl|]. apply E; auto.
Qed.
Lemma forall2_index {A B} (R : A -> B -> Prop) s l i a x b : Forall2 R s l -> at_index s i a x b -> exists a' y b', at_index l i a' y b' /\ Forall2 R a a' /\ R x y /\ Forall2 R b b'.
Proof.
  intros F [-> H]. apply Forall2_app_inv_l in F. destruct F as (a' & r & F1 & F2 & ->). inversion F2 as [|x' y b0 b' R1 R2]; subst.
  exists a', y, b'. split; [|auto]. split; [reflexivity|]. apply forall2_length in F1. apply forall2_length in R2. unfold zlen in *. lia.
Qed.
Lemma forall2_no_index {A B} (R : A -> B -> Prop) s l i : Forall2 R s l -> no_index s i -> no_index l i.
Proof. intros F H. apply idx_none. apply idx_none in H. apply forall2_length in F. unfold zlen in *. rewrite <- F. exact H. Qed.

(** The outcome of reading an item. *)
Definition item_of (l : list pv) (i : Z) (r : res pv) : Prop := (exists a x b, at_index l i a x b /\ r = Ok x) \/ (no_index l i /\ r = Err EIndex).
Lemma no_index_nil {A} i : no_index (@nil A) i.
Proof. intros a x b [H _]. destruct a; discriminate H. Qed.
Lemma sim_get k i l : sim k (get_item k i) l (fun l' r => l' = l /\ item_of l i r).
Proof.
  unfold get_item. apply sim_list; [|intros _ ->; split; [reflexivity|]; right; split; [apply no_index_nil|reflexivity]]. intros s F.
  destruct (index_cases s i) as [(a & x & b & X)|N].
  - destruct (forall2_index _ _ _ _ _ _ _ F X) as (a' & y & b' & Y & F1 & F2 & F3).
    eapply sim_bind with (P := fun l' r => l' = l /\ r = Ok x); [apply sim_lift; split; [reflexivity|exact (lget_at _ _ _ _ _ X)]| |intros ? ? [_ ?]; discriminate].
    intros l1 v [-> E]. apply Ok_eq in E. subst v.
    eapply sim_bind with (P := fun l' r => l' = l /\ r = Ok y); [apply sim_lift; split; [reflexivity|exact F2]| |intros ? ? [_ ?]; discriminate].
    intros l1 w [-> E]. apply Ok_eq in E. subst w.
    eapply sim_bind with (P := fun l' r => l' = l /\ r = Ok (a ++ y :: b)); [apply sim_lift; split; [reflexivity|exact (lput_at _ _ _ _ _ _ X)]| |intros ? ? [_ ?]; discriminate].
    intros l1 w [-> E]. apply Ok_eq in E. subst w.
    eapply sim_bind with (P := fun l' r => l' = l /\ r = Ok PNone); [apply sim_put with (ws := l); [|auto]| |intros ? ? [_ ?]; discriminate].
    + destruct Y as [-> _]. apply Forall2_app; [exact F1|]. constructor; [exact (norm_norm _ _ _ F2)|exact F3].
    + intros l1 w [-> _]. apply sim_ret. split; [reflexivity|]. left. eauto.
  - eapply sim_bind with (P := fun l' r => l' = l /\ r = Err EIndex); [apply sim_lift; split; [reflexivity|exact (lget_none _ _ N)]|intros ? ? [_ ?]; discriminate|].
    intros l1 e [-> E]. injection E. intros ->. split; [reflexivity|]. right. split; [exact (forall2_no_index _ _ _ _ F N)|reflexivity].
Qed.
Lemma sim_set k i v w l : norm k v = Ok w ->
  sim k (set_item k i v) l (fun l' r => (exists a x b, at_index l i a x b /\ l' = a ++ w :: b /\ r = Ok PNone) \/ (no_index l i /\ l' = l /\ r = Err EIndex)).
Proof.
  intros W. unfold set_item. apply sim_list; [|intros _ ->; right; split; [apply no_index_nil|auto]]. intros s F. rewrite W.
  eapply sim_bind with (P := fun l' r => l' = l /\ r = Ok w); [apply sim_lift; auto| |intros ? ? [_ ?]; discriminate]. intros l1 v1 [-> E]. apply Ok_eq in E. subst v1.
  destruct (index_cases s i) as [(a & x & b & X)|N].
  - destruct (forall2_index _ _ _ _ _ _ _ F X) as (a' & y & b' & Y & F1 & F2 & F3). rewrite (lput_at _ _ _ _ _ _ X).
    eapply sim_bind with (P := fun l' r => l' = l /\ r = Ok (a ++ w :: b)); [apply sim_lift; auto| |intros ? ? [_ ?]; discriminate].
    intros l1 v1 [-> E]. apply Ok_eq in E. subst v1. apply sim_put with (ws := a' ++ w :: b').
    + apply Forall2_app; [exact F1|]. constructor; [exact (norm_norm _ _ _ W)|exact F3].
    + left. exists a', y, b'. auto.
  - rewrite (lput_none _ _ _ N). eapply sim_bind with (P := fun l' r => l' = l /\ r = Err EIndex); [apply sim_lift; auto|intros ? ? [_ ?]; discriminate|].
    intros l1 e [-> E]. injection E. intros ->. right. split; [exact (forall2_no_index _ _ _ _ F N)|auto].
Qed.
(** Deleting by any function that goes through the list in the same way. *)
Lemma sim_put_opt k l s ws (P : list pv -> res pv -> Prop) : Forall2 (fun v w => norm k v = Ok w) s ws -> P ws (Ok PNone) ->
  sim k (put_list k (match k, s with Comps, _ => Some s | _, [] => None | _, _ => Some s end)) l P.
Proof.
  intros F H. destruct (match k with Comps => true | _ => false end) eqn:K.
  - destruct k; try discriminate. exact (sim_put Comps l s ws P F H).
  - destruct s as [|v s].
    + inversion F. subst ws. assert (N : k <> Comps) by (intros ->; discriminate). intros o S. destruct (store_none _ _ _ N S) as [A B]. exists (store k None o), [], (Ok PNone).
      split; [destruct k; try reflexivity; congruence|]. auto.
    + pose proof (sim_put k l (v :: s) ws P F H) as G. destruct k; exact G.
Qed.
Lemma sim_del_with k (f : list pv -> res (list pv)) (l : list pv) : (forall s, Forall2 (fun v w => norm k v = Ok w) s l ->
    match f s with Ok s' => exists l', f l = Ok l' /\ Forall2 (fun v w => norm k v = Ok w) s' l' | Err e => f l = Err e end) ->
  sim k (del_with k f) l (fun l' r => outcome l (f l) = (l', r) \/ (k <> Comps /\ l = [] /\ l' = [] /\ r = Err EIndex)).
Proof.
  intros H. unfold del_with. apply sim_list; [|intros K ->; right; auto]. intros s F. specialize (H s F). destruct (f s) as [s'|e].
  - destruct H as (l' & E & F').
    eapply sim_bind with (P := fun l1 r => l1 = l /\ r = Ok s'); [apply sim_lift; auto| |intros ? ? [_ ?]; discriminate]. intros l1 v1 [-> X]. apply Ok_eq in X. subst v1.
    apply sim_put_opt with (ws := l'); [exact F'|]. left. rewrite E. reflexivity.
  - eapply sim_bind with (P := fun l' r => l' = l /\ r = Err e); [apply sim_lift; auto|intros ? ? [_ ?]; discriminate|].
    intros l1 e1 [-> E]. injection E. intros ->. left. rewrite H. reflexivity.
Qed.
Lemma sim_del k i l : sim k (del_item k i) l (fun l' r => (exists a x b, at_index l i a x b /\ l' = a ++ b /\ r = Ok PNone) \/ (no_index l i /\ l' = l /\ r = Err EIndex)).
Proof.
  eapply sim_weak; [apply sim_del_with|].
  - intros s F. destruct (index_cases s i) as [(a & x & b & X)|N].
    + destruct (forall2_index _ _ _ _ _ _ _ F X) as (a' & y & b' & Y & F1 & F2 & F3). rewrite (lcut_at _ _ _ _ _ X). exists (a' ++ b'). split; [exact (lcut_at _ _ _ _ _ Y)|]. apply Forall2_app; assumption.
    + rewrite (lcut_none _ _ N). apply lcut_none. exact (forall2_no_index _ _ _ _ F N).
  - intros l' r [H|(_ & -> & -> & ->)]; [|right; split; [apply no_index_nil|auto]]. destruct (index_cases l i) as [(a & x & b & X)|N].
    + rewrite (lcut_at _ _ _ _ _ X) in H. injection H. intros <- <-. left. exists a, x, b. auto.
    + rewrite (lcut_none _ _ N) in H. injection H. intros <- <-. right. auto.
Qed.
Lemma forall2_between {A B} (R : A -> B -> Prop) s l i a b : Forall2 R s l -> between l i a b -> exists a' b', between s i a' b' /\ Forall2 R a' a /\ Forall2 R b' b.
Proof.
  intros F [-> H]. apply Forall2_app_inv_r in F. destruct F as (a' & b' & F1 & F2 & ->). exists a', b'. split; [|auto]. split; [reflexivity|].
  assert (E1 : b' = [] <-> b = []) by (split; intros ->; inversion F2; reflexivity). assert (E2 : a' = [] <-> a = []) by (split; intros ->; inversion F1; reflexivity).
  apply forall2_length in F1. apply forall2_length in F2. unfold zlen in *. rewrite F1, F2, E1, E2. exact H.
Qed.
Lemma sim_insert k i v w l a b : norm k v = Ok w -> between l i a b -> sim k (insert k i v) l (fun l' r => l' = a ++ w :: b /\ r = Ok PNone).
Proof.
  intros W X o S. pose proof S as (d & s & Hd & N & G & C & F). unfold insert, raw. rewrite Hd. cbn [rbind]. rewrite G, W. destruct s as [s|]; cbn [option_map as_list rbind].
  - destruct (forall2_between _ _ _ _ _ _ F X) as (a' & b' & Y & F1 & F2). rewrite (linsert_between _ _ _ _ _ Y). destruct (store_some k o l (a' ++ w :: b') (a ++ w :: b) S) as [A B].
    { apply Forall2_app; [exact F1|]. constructor; [exact (norm_norm _ _ _ W)|exact F2]. }
    exists (store k (Some (a' ++ w :: b')) o), (a ++ w :: b), (Ok PNone). split; [reflexivity|]. split; [exact A|]. split; [exact B|auto].
  - assert (K : k <> Comps) by (intros Y; apply (C Y); reflexivity). assert (l = []) by (inversion F; reflexivity). subst l.
    assert (X' : between [] i a b) by exact X. rewrite (linsert_between _ _ _ _ w X'). destruct X as [X _]. symmetry in X. apply app_eq_nil in X. destruct X as [-> ->].
    destruct (store_some k o [] [w] [w] S) as [A B]; [constructor; [exact (norm_norm _ _ _ W)|constructor]|].
    exists (store k (Some [w]) o), [w], (Ok PNone). split; [destruct k; try reflexivity; congruence|]. split; [exact A|]. split; [exact B|auto].
Qed.
Lemma sim_len k l : sim k (len k) l (fun l' r => l' = l /\ r = Ok (zlen l)).
Proof.
  intros o S. pose proof S as (d & s & Hd & N & G & C & F). unfold len, raw. rewrite Hd. cbn [rbind]. rewrite G. exists o, l, (Ok (zlen l)). split; [|split; [exact S|split; [apply list_same_refl|auto]]].
  pose proof (forall2_length _ _ _ F) as L. destruct s as [s|]; cbn [option_map as_list rbind].
  - unfold zlen. rewrite L. reflexivity.
  - assert (K : k <> Comps) by (intros Y; apply (C Y); reflexivity). unfold zlen. rewrite <- L. cbn. destruct k; try reflexivity. congruence.
Qed.
