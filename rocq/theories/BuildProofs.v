From Coq Require Import String Lia.
From Verif Require Import Base BaseProofs PyValue PyValueProofs Json JsonProofs CogEnums VideoLayout GrainObj BuildSpec.
Local Open Scope list_scope.

Definition fill (l d : dict) : dict := fold_left (fun d kv => ddefault (fst kv) (snd kv) d) l d.
Lemma dget_fill l : forall d k, dget k (fill l d) = match dget k d with Some v => Some v | None => dget k l end.
Proof.
  induction l as [|[k' v] l IH]; intros d k; cbn [fill fold_left]; [cbn [dget]; destruct (dget k d); reflexivity|].
  change (fold_left _ l _) with (fill l (ddefault k' v d)). rewrite IH. cbn [fst snd dget]. destruct (zlist_eqb k k') eqn:E.
  - apply zlist_eqb_eq in E. subst k'. rewrite dget_default_same. destruct (dget k d); reflexivity.
  - assert (N : k <> k') by (intros ->; rewrite zlist_eqb_refl in E; discriminate E). rewrite (dget_default_other _ _ _ _ N). reflexivity.
Qed.
Lemma fill_id l d : (forall k, In k (map fst l) -> dget k d <> None) -> fill l d = d.
Proof.
  revert d. induction l as [|[k v] l IH]; intros d H; [reflexivity|]. cbn [fill fold_left fst snd].
  destruct (dget k d) as [w|] eqn:E; [|destruct (H k); [left; reflexivity|exact E]]. rewrite (ddefault_same _ _ _ _ E).
  apply IH. intros k' Hk. apply H. right; exact Hk.
Qed.
Fixpoint convs (l : list (str * (pv -> res pv))) (d : dict) : res dict :=
  match l with [] => Ok d | (k, f) :: l => rbind (conv k f d) (convs l) end.
Lemma conv_ok k f d d' : conv k f d = Ok d' <-> exists v w, dget k d = Some v /\ f v = Ok w /\ d' = dset k w d.
Proof.
  unfold conv, ditem. split.
  - intros H. apply rbind_ok in H as (v & Hv & H). destruct (dget k d) as [v'|]; [|discriminate Hv]. apply Ok_eq in Hv. subst v'.
    apply rbind_ok in H as (w & Hw & H). apply Ok_eq in H. exists v, w. auto.
  - intros (v & w & -> & E & ->). cbn [rbind]. rewrite E. reflexivity.
Qed.
Lemma convs_ok l : NoDup (map fst l) -> forall d d', convs l d = Ok d' -> forall k,
  match dget k l with Some f => exists v w, dget k d = Some v /\ f v = Ok w /\ dget k d' = Some w | None => dget k d' = dget k d end.
Proof.
  induction l as [|[k f] l IH]; intros N d d' H k0; cbn [convs] in H; [apply Ok_eq in H; subst; reflexivity|].
  apply rbind_ok in H as (d1 & H1 & H). apply conv_ok in H1 as (v & w & V & W & ->). inversion N as [|? ? N1 N2]; subst.
  specialize (IH N2 _ _ H k0). cbn [dget]. destruct (zlist_eqb k0 k) eqn:E.
  - apply zlist_eqb_eq in E. subst k0. exists v, w. split; [exact V|]. split; [exact W|].
    destruct (dget k l) eqn:F; [|rewrite IH; apply dget_set_same]. apply dget_in in F. destruct N1. apply (in_map fst) in F. exact F.
  - assert (M : k0 <> k) by (intros ->; rewrite zlist_eqb_refl in E; discriminate E). rewrite (dget_set_other _ _ _ _ M) in IH. exact IH.
Qed.
Lemma convs_total l : NoDup (map fst l) -> forall d, (exists d', convs l d = Ok d') <-> forall k f, In (k, f) l -> exists v w, dget k d = Some v /\ f v = Ok w.
Proof.
  induction l as [|[k f] l IH]; intros N d; cbn [convs]; [split; [intros _ k f []|eauto]|].
  inversion N as [|? ? N1 N2]; subst. split.
  - intros [d' H]. apply rbind_ok in H as (d1 & H1 & H). apply conv_ok in H1 as (v & w & V & W & ->). intros k0 f0 [E|E].
    + injection E as <- <-. eauto.
    + destruct (proj1 (IH N2 _) (ex_intro _ d' H) _ _ E) as (v0 & w0 & V0 & W0). rewrite dget_set_other in V0; [eauto|].
      intros ->. apply N1. apply (in_map fst) in E. exact E.
  - intros H. destruct (H k f (or_introl eq_refl)) as (v & w & V & W). rewrite (proj2 (conv_ok k f d (dset k w d))); [|eauto]. cbn [rbind]. apply IH; auto.
    intros k0 f0 E. destruct (H k0 f0 (or_intror E)) as (v0 & w0 & V0 & W0). exists v0, w0. split; auto. rewrite dget_set_other; auto.
    intros ->. apply N1. apply (in_map fst) in E. exact E.
Qed.
Lemma convs_id l d : (forall k f, In (k, f) l -> exists v, dget k d = Some v /\ f v = Ok v) -> convs l d = Ok d.
Proof.
  induction l as [|[k f] l IH]; intros H; [reflexivity|]. cbn [convs]. destruct (H k f (or_introl eq_refl)) as (v & V & W).
  assert (E : conv k f d = Ok d) by (apply conv_ok; exists v, v; rewrite (dset_same _ _ _ V); auto). rewrite E. cbn [rbind].
  apply IH. intros; apply H; right; auto.
Qed.
Lemma with_key_ok k f m m' : with_key k f m = Ok m' <-> exists d d', dget k m = Some (PDict d) /\ f d = Ok d' /\ m' = dset k (PDict d') m.
Proof.
  unfold with_key, ditem. split.
  - intros H. apply rbind_ok in H as (v & Hv & H). destruct (dget k m) as [v'|]; [|discriminate Hv]. apply Ok_eq in Hv. subst v'.
    apply rbind_ok in H as (d & Hd & H). destruct v; try discriminate Hd. apply Ok_eq in Hd. subst d0. apply rbind_ok in H as (d' & Hd' & H). apply Ok_eq in H. eauto.
  - intros (d & d' & -> & E & ->). cbn [rbind as_dict]. rewrite E. reflexivity.
Qed.
Lemma with_key_id k f m d : dget k m = Some (PDict d) -> f d = Ok d -> with_key k f m = Ok m.
Proof. intros H E. apply with_key_ok. exists d, d. rewrite (dset_same _ _ _ H). auto. Qed.
Lemma with_key_total k f m : (exists m', with_key k f m = Ok m') <-> exists d d', dget k m = Some (PDict d) /\ f d = Ok d'.
Proof.
  split.
  - intros [m' H]. apply with_key_ok in H as (d & d' & A & B & _). eauto.
  - intros (d & d' & A & B). eexists. apply with_key_ok. eauto.
Qed.

(** Unequal string literals. *)
Ltac differ := let H := fresh in intros H; vm_compute in H; discriminate H.
Ltac sorted_keys := repeat (apply NoDup_cons; [let H := fresh in intros H; vm_compute in H; repeat (destruct H as [H|H]; [discriminate H|]); exact H|]); apply NoDup_nil.

(** ** The common fields. *)
Lemma default_is_fill now g : default_fields now g = fill (standard now g) g.
Proof.
  unfold default_fields, standard, fill. cbn [fold_left fst snd].
  assert (G : forall k v d, dget k (ddefault k v d) = Some (given d k v)) by (intros; apply dget_default_same).
  set (g1 := ddefault $"grain_type" (PStr $"empty") g). set (g2 := ddefault $"creation_timestamp" (PTimeStr now) g1).
  assert (A : forall k v, ddefault k v = ddefault k (given [] k v)) by reflexivity.
  assert (E0 : ddefault $"grain_type" (given g $"grain_type" (PStr $"empty")) g = g1).
  { unfold g1, ddefault, given, dhas. destruct (dget _ g); reflexivity. }
  rewrite E0. clear E0.
  assert (D1 : forall k, k <> $"grain_type" -> dget k g1 = dget k g) by (intros k N; apply dget_default_other, N).
  assert (S : forall k v (d e : dict), dget k d = dget k e -> ddefault k (given e k v) d = ddefault k v d).
  { intros k v d e Q. unfold ddefault, given, dhas. rewrite Q. destruct (dget k e); reflexivity. }
  rewrite (S $"creation_timestamp" (PTimeStr now) g1 g); [|apply D1; differ]. fold g2.
  assert (C2 : or_none (dget $"creation_timestamp" g2) = given g $"creation_timestamp" (PTimeStr now)).
  { unfold g2. rewrite G. cbn [or_none]. unfold given. rewrite D1; [reflexivity|differ]. }
  rewrite C2. set (cr := given g $"creation_timestamp" (PTimeStr now)).
  assert (D2 : forall k, k <> $"grain_type" -> k <> $"creation_timestamp" -> dget k g2 = dget k g).
  { intros k N1 N2. unfold g2. rewrite dget_default_other; auto. }
  rewrite (S $"origin_timestamp" cr g2 g); [|apply D2; differ]. set (g3 := ddefault $"origin_timestamp" cr g2).
  assert (C3 : or_none (dget $"origin_timestamp" g3) = given g $"origin_timestamp" cr).
  { unfold g3. rewrite G. cbn [or_none]. unfold given. rewrite D2; [reflexivity|differ|differ]. }
  rewrite C3. set (og := given g $"origin_timestamp" cr).
  assert (D3 : forall k, k <> $"grain_type" -> k <> $"creation_timestamp" -> k <> $"origin_timestamp" -> dget k g3 = dget k g).
  { intros k N1 N2 N3. unfold g3. rewrite dget_default_other; auto. }
  rewrite (S $"sync_timestamp" og g3 g); [|apply D3; differ]. set (g4 := ddefault $"sync_timestamp" og g3).
  rewrite (S $"rate"); [|unfold g4; rewrite dget_default_other; [apply D3; differ|differ]].
  rewrite (S $"duration"); [|rewrite dget_default_other by differ; unfold g4; rewrite dget_default_other by differ; apply D3; differ].
  rewrite (S $"source_id"); [|rewrite dget_default_other by differ; rewrite dget_default_other by differ; unfold g4; rewrite dget_default_other by differ; apply D3; differ].
  rewrite (S $"flow_id"); [reflexivity|].
  rewrite !dget_default_other by differ. unfold g4. rewrite dget_default_other by differ. apply D3; differ.
Qed.
Definition text_convs : list (str * (pv -> res pv)) :=
  [($"source_id", text_of_id); ($"flow_id", text_of_id); ($"origin_timestamp", text_of_time); ($"sync_timestamp", text_of_time);
   ($"creation_timestamp", text_of_time); ($"rate", dict_of_frac); ($"duration", dict_of_frac)].
Lemma rbind_assoc_end {A} (r : res A) : rbind r Ok = r.
Proof. destruct r; reflexivity. Qed.
Lemma text_is_convs g : text_fields g = convs text_convs g.
Proof.
  unfold text_fields, text_convs. cbn [convs]. repeat (match goal with |- rbind ?r _ = rbind ?r _ => destruct r; cbn [rbind]; [|reflexivity] end).
  symmetry. apply rbind_assoc_end.
Qed.
Lemma text_keys : NoDup (map fst text_convs).
Proof. sorted_keys. Qed.
Definition fields_of (now : Z) (g : dict) : res dict := text_fields (default_fields now g).
Lemma fields_of_get now g g' : fields_of now g = Ok g' -> forall k, dget k g' = field_after now g k.
Proof.
  intros H k. unfold fields_of in H. rewrite default_is_fill, text_is_convs in H. pose proof (convs_ok _ text_keys _ _ H k) as C. rewrite dget_fill in C.
  unfold field_after.
  assert (R : match dget k g with Some v => Some v | None => dget k (standard now g) end = match dget k (standard now g) with Some v => Some v | None => dget k g end).
  { destruct (dget k g) as [v|] eqn:E; [|destruct (dget k (standard now g)); reflexivity].
    destruct (dget k (standard now g)) as [w|] eqn:F; [|reflexivity]. unfold standard in F. cbn [dget] in F.
    repeat match type of F with (if ?b then _ else _) = _ => destruct b eqn:B; [apply zlist_eqb_eq in B; subst k; unfold given in F; rewrite E in F; congruence|clear B] end.
    discriminate F. }
  rewrite R in C. set (raw := match dget k (standard now g) with Some v => Some v | None => dget k g end) in *.
  destruct (dget k text_convs) as [f|] eqn:F.
  - destruct C as (v & w & V & W & ->). rewrite V. cbn [option_map]. f_equal. unfold text_convs in F. cbn [dget] in F.
    repeat match type of F with (if ?b then _ else _) = _ => destruct b eqn:B;
      [apply zlist_eqb_eq in B; rewrite B; assert (Ef : f = _) by (injection F as <-; reflexivity); rewrite Ef in W; clear - W;
       destruct v; cbn [text_of_id text_of_time dict_of_frac is_text] in W; try discriminate W; apply Ok_eq in W; subst w; vm_compute; reflexivity|clear B] end.
    discriminate F.
  - rewrite C. destruct raw as [v|]; [|reflexivity]. cbn [option_map]. f_equal.
    assert (N : forall l, incl l (map fst text_convs) -> existsb (zlist_eqb k) l = false).
    { intros l Hl. apply not_true_is_false. intros X. apply existsb_exists in X as (x & I & X). apply zlist_eqb_eq in X. subst x.
      apply dget_none in F. apply F. apply Hl, I. }
    destruct v; try reflexivity; cbn [plain]; rewrite N; auto; intros x Hx; cbn [In] in Hx; destruct Hx as [<-|Hx]; try (vm_compute; tauto);
      destruct Hx as [<-|Hx]; try (vm_compute; tauto); try (destruct Hx as [<-|[]]; vm_compute; tauto); destruct Hx.
Qed.
Lemma fields_total now g : (exists g', fields_of now g = Ok g') <-> forall k v, In k time_names -> dget k (standard now g) = Some v -> time_like v.
Proof.
  unfold fields_of. rewrite default_is_fill, text_is_convs, (convs_total _ text_keys).
  assert (R : forall k v, dget k (standard now g) = Some v -> dget k (fill (standard now g) g) = Some v).
  { intros k v H. rewrite dget_fill. destruct (dget k g) as [w|] eqn:E; [|exact H]. unfold standard in H. cbn [dget] in H.
    repeat match type of H with (if ?b then _ else _) = _ => destruct b eqn:B; [apply zlist_eqb_eq in B; subst k; unfold given in H; rewrite E in H; exact H|clear B] end.
    discriminate H. }
  assert (T : forall v, (exists w, text_of_time v = Ok w) <-> time_like v).
  { intros v. unfold time_like. split.
    - intros [w H]. destruct v; cbn [text_of_time is_text] in H; try discriminate H; try (right; reflexivity). left; eauto.
    - intros [[t ->]|H]; [eexists; reflexivity|]. destruct v; try discriminate H; eexists; reflexivity. }
  split.
  - intros H k v Hk Hv. apply T. assert (I : In (k, text_of_time) text_convs).
    { cbn [In time_names] in Hk. destruct Hk as [<-|[<-|[<-|[]]]]; vm_compute; tauto. }
    destruct (H _ _ I) as (v' & w & V & W). rewrite (R _ _ Hv) in V. injection V as <-. eauto.
  - intros H k f I. assert (P : exists v, dget k (standard now g) = Some v).
    { cbn [In text_convs] in I. repeat (destruct I as [I|I]; [injection I as <- <-; eexists; unfold standard; vm_compute; reflexivity|]). destruct I. }
    destruct P as [v P]. exists v. cbn [In text_convs] in I.
    assert (X : exists w, f v = Ok w).
    { assert (TT : In k time_names -> exists w, text_of_time v = Ok w) by (intros J; apply T; eapply H; eauto).
      repeat (destruct I as [I|I]; [injection I as <- <-; first [destruct v; eexists; reflexivity | apply TT; vm_compute; tauto]|]). destruct I. }
    destruct X as [w X]. exists w. split; auto.
Qed.
(** All the standard fields are there, in their stored form. *)
Definition stable (g : dict) : Prop := forall k, In k (map fst (standard 0 [])) ->
  exists v, dget k g = Some v /\ plain k v = v /\ (In k time_names -> is_text v = true).
Lemma standard_names now g : map fst (standard now g) = map fst (standard 0 []).
Proof. reflexivity. Qed.
Lemma stable_id now g : stable g -> fields_of now g = Ok g.
Proof.
  intros S. unfold fields_of. rewrite default_is_fill, text_is_convs. rewrite fill_id.
  - apply convs_id. assert (A : Forall (fun kf => exists v, dget (fst kf) g = Some v /\ snd kf v = Ok v) text_convs).
    { assert (ID : forall k, In k id_names -> exists v, dget k g = Some v /\ text_of_id v = Ok v).
      { intros k Hk. destruct (S k) as (v & V & P & _); [destruct Hk as [<-|[<-|[]]]; vm_compute; tauto|]. exists v. split; [exact V|].
        destruct v; try reflexivity. destruct Hk as [<-|[<-|[]]]; vm_compute in P; discriminate P. }
      assert (TM : forall k, In k time_names -> exists v, dget k g = Some v /\ text_of_time v = Ok v).
      { intros k Hk. destruct (S k) as (v & V & _ & T); [destruct Hk as [<-|[<-|[<-|[]]]]; vm_compute; tauto|]. exists v. split; [exact V|].
        specialize (T Hk). destruct v; try discriminate T; reflexivity. }
      assert (RT : forall k, In k rate_names -> exists v, dget k g = Some v /\ dict_of_frac v = Ok v).
      { intros k Hk. destruct (S k) as (v & V & P & _); [destruct Hk as [<-|[<-|[]]]; vm_compute; tauto|]. exists v. split; [exact V|].
        destruct v; try reflexivity. destruct Hk as [<-|[<-|[]]]; vm_compute in P; discriminate P. }
      unfold text_convs.
      apply Forall_cons; [apply ID; vm_compute; tauto|]. apply Forall_cons; [apply ID; vm_compute; tauto|].
      apply Forall_cons; [apply TM; vm_compute; tauto|]. apply Forall_cons; [apply TM; vm_compute; tauto|]. apply Forall_cons; [apply TM; vm_compute; tauto|].
      apply Forall_cons; [apply RT; vm_compute; tauto|]. apply Forall_cons; [apply RT; vm_compute; tauto|]. apply Forall_nil. }
    intros k f I. rewrite Forall_forall in A. exact (A (k, f) I).
  - intros k Hk. rewrite standard_names in Hk. destruct (S k Hk) as (v & V & _). congruence.
Qed.
Lemma fields_stable now g g' : fields_of now g = Ok g' -> stable g'.
Proof.
  intros H k Hk. pose proof (fields_of_get _ _ _ H k) as G. unfold field_after in G.
  pose proof (proj1 (fields_total now g) (ex_intro _ g' H) k) as T.
  assert (S : exists v, dget k (standard now g) = Some v).
  { destruct (dget k (standard now g)) as [v|] eqn:E; [eauto|]. apply dget_none in E. destruct E. rewrite standard_names. exact Hk. }
  destruct S as [v E]. rewrite E in G. cbn [option_map] in G. exists (plain k v). split; [exact G|]. split.
  - destruct v; try reflexivity; cbn [plain]; destruct (existsb _ _) eqn:X; try reflexivity; cbn [plain]; try rewrite X; reflexivity.
  - intros I. destruct (T v I E) as [[t ->]|X].
    + cbn [plain]. replace (existsb (zlist_eqb k) time_names) with true; [reflexivity|]. symmetry. apply existsb_exists. exists k. split; [exact I|apply zlist_eqb_refl].
    + destruct v; try discriminate X; reflexivity.
Qed.
Lemma stable_set g k v : stable g -> ~ In k (map fst (standard 0 [])) -> stable (dset k v g).
Proof.
  intros S N k' H. destruct (S k' H) as (w & W & R). exists w. split; [|exact R]. rewrite dget_set_other; auto. intros ->. contradiction.
Qed.
Lemma stable_type g v : stable g -> stable (dset $"grain_type" (PStr v) g).
Proof.
  intros S k H. destruct (list_eq_dec Z.eq_dec k $"grain_type") as [->|N].
  - exists (PStr v). split; [apply dget_set_same|]. split; [reflexivity|]. intros _. reflexivity.
  - destruct (S k H) as (w & W & R). exists w. split; [|exact R]. rewrite dget_set_other; auto.
Qed.

(** ** Grain.__init__ on the whole dictionary. *)
Definition top_after (m : dict) (k : str) : option pv :=
  match dget k m with Some v => Some v | None => if zlist_eqb k $"@_ns" then Some (PStr $"urn:x-ipstudio:ns:0.1") else None end.
Lemma meta_parts now m m' : grain_meta now m = Ok m' <->
  exists g', fields_of now (fields m) = Ok g' /\ (dget $"grain" m = None \/ exists g, dget $"grain" m = Some (PDict g)) /\
    m' = dset $"grain" (PDict g') (ddefault $"grain" (PDict []) (ddefault $"@_ns" (PStr $"urn:x-ipstudio:ns:0.1") m)).
Proof.
  unfold grain_meta, fields. rewrite with_key_ok. rewrite dget_default_same, (dget_default_other $"grain") by differ. change (text_fields (default_fields now ?g)) with (fields_of now g).
  split.
  - intros (d & d' & D & F & ->). destruct (dget $"grain" m) as [v|] eqn:E.
    + injection D as ->. exists d'. split; [exact F|]. split; [right; eauto|reflexivity].
    + injection D as <-. exists d'. split; [exact F|]. split; [left; auto|reflexivity].
  - intros (g' & F & [E|[g E]] & ->); rewrite E in *; eexists; exists g'; (split; [reflexivity|]); split; auto.
Qed.
Lemma meta_get now m m' : grain_meta now m = Ok m' ->
  (forall k, k <> $"grain" -> dget k m' = top_after m k) /\ exists g', dget $"grain" m' = Some (PDict g') /\ fields_of now (fields m) = Ok g'.
Proof.
  intros H. apply meta_parts in H as (g' & F & _ & ->). split.
  - intros k N. rewrite dget_set_other, dget_default_other by exact N. unfold top_after. destruct (zlist_eqb k $"@_ns") eqn:E.
    + apply zlist_eqb_eq in E. subst k. rewrite dget_default_same. destruct (dget _ m); reflexivity.
    + rewrite dget_default_other; [destruct (dget k m); reflexivity|]. intros ->. rewrite zlist_eqb_refl in E. discriminate E.
  - exists g'. split; [apply dget_set_same|exact F].
Qed.
Lemma meta_id now m g : dget $"grain" m = Some (PDict g) -> dget $"@_ns" m <> None -> stable g -> grain_meta now m = Ok m.
Proof.
  intros G N S. unfold grain_meta. destruct (dget $"@_ns" m) as [v|] eqn:E; [|destruct N; reflexivity]. rewrite (ddefault_same _ _ _ _ E), (ddefault_same _ _ _ _ G).
  apply (with_key_id _ _ _ g G). apply stable_id, S.
Qed.

(** ** The part for the class. *)
Lemma dset_twice {A} k (v w : A) d : dset k v (dset k w d) = dset k v d.
Proof.
  induction d as [|[k' x] d IH]; cbn [dset]; [rewrite zlist_eqb_refl; reflexivity|].
  destruct (zlist_eqb k k') eqn:E; cbn [dset]; rewrite E; [reflexivity|rewrite IH; reflexivity].
Qed.
Lemma dset_default {A} k (v w : A) d : dset k v (ddefault k w d) = dset k v d.
Proof. unfold ddefault. destruct (dhas k d); [reflexivity|apply dset_twice]. Qed.
Lemma part_step s D F g g' : with_key s F (ddefault s (PDict D) g) = Ok g' <->
  exists f f', (dget s g = Some (PDict f) \/ (dget s g = None /\ f = D)) /\ F f = Ok f' /\ g' = dset s (PDict f') g.
Proof.
  rewrite with_key_ok, dget_default_same. split.
  - intros (d & d' & E & G & ->). rewrite dset_default. exists d, d'. destruct (dget s g) as [v|]; injection E as <-; auto.
  - intros (f & f' & [E|[E ->]] & G & ->); rewrite E; rewrite <- (dset_default s (PDict f') (PDict D) g); eauto.
Qed.
Lemma fields_dict m g : dget $"grain" m = Some (PDict g) -> fields m = g.
Proof. intros H. unfold fields. rewrite H. reflexivity. Qed.
(** What a class does to the fields after Grain.__init__. *)
Definition class_step (c : gclass) (D : dict) (F : dict -> res dict) (g : dict) : res dict :=
  with_key (part_name c) F (ddefault (part_name c) (PDict D) (dset $"grain_type" (PStr (type_name c)) g)).
Lemma part_not_standard c : c <> KGrain -> ~ In (part_name c) (map fst (standard 0 [])).
Proof. intros N H. destruct c; [destruct N; reflexivity|..]; vm_compute in H; repeat (destruct H as [H|H]; [discriminate H|]); exact H. Qed.
Lemma part_not_type c : c <> KGrain -> part_name c <> $"grain_type".
Proof. intros N. destruct c; [destruct N; reflexivity|..]; differ. Qed.
Lemma part_not_grain c : c <> KGrain -> part_name c <> $"grain".
Proof. intros N. destruct c; [destruct N; reflexivity|..]; differ. Qed.
Lemma after_other now g k : ~ In k (map fst (standard 0 [])) -> field_after now g k = dget k g.
Proof.
  intros N. unfold field_after. replace (dget k (standard now g)) with (@None pv) by (symmetry; apply dget_none; exact N).
  destruct (dget k g) as [v|]; [|reflexivity]. cbn [option_map]. f_equal.
  assert (X : forall l, incl l (map fst (standard 0 [])) -> existsb (zlist_eqb k) l = false).
  { intros l I. apply not_true_is_false. intros Y. apply existsb_exists in Y as (x & J & Y). apply zlist_eqb_eq in Y. subst x. apply N, I, J. }
  destruct v; try reflexivity; cbn [plain]; rewrite X; auto; intros x Hx; cbn [In] in Hx; destruct Hx as [<-|Hx]; try (vm_compute; tauto);
    destruct Hx as [<-|Hx]; try (vm_compute; tauto); try (destruct Hx as [<-|[]]; vm_compute; tauto); destruct Hx.
Qed.
(** The class part that a step leaves, from the fields supplied. *)
Definition part_result (c : gclass) (D : dict) (F : dict -> res dict) (g f' : dict) : Prop :=
  exists f, (dget (part_name c) g = Some (PDict f) \/ (dget (part_name c) g = None /\ f = D)) /\ F f = Ok f'.
Lemma step_built c D F now m m1 m2 : c <> KGrain -> grain_meta now m = Ok m1 -> with_key $"grain" (class_step c D F) m1 = Ok m2 ->
  exists f', part_result c D F (fields m) f' /\
    (forall k, k <> $"grain" -> dget k m2 = top_after m k) /\ (exists g, dget $"grain" m2 = Some (PDict g) /\ stable g) /\
    (forall k, k <> part_name c -> k <> $"grain_type" -> dget k (fields m2) = field_after now (fields m) k) /\
    dget $"grain_type" (fields m2) = Some (PStr (type_name c)) /\ dget (part_name c) (fields m2) = Some (PDict f').
Proof.
  intros N H1 H2. destruct (meta_get _ _ _ H1) as (T & g1 & G1 & F1). apply with_key_ok in H2 as (d & d' & E & S & ->).
  rewrite G1 in E. injection E as <-. unfold class_step in S. apply part_step in S as (f & f' & P & Q & ->).
  assert (R : dget (part_name c) (dset $"grain_type" (PStr (type_name c)) g1) = dget (part_name c) (fields m)).
  { rewrite dget_set_other by (apply part_not_type, N). rewrite (fields_of_get _ _ _ F1). apply after_other, part_not_standard, N. }
  rewrite R in P. exists f'. split; [exists f; auto|]. split; [intros k K; rewrite dget_set_other by exact K; apply T, K|].
  rewrite (fields_dict _ _ (dget_set_same _ _ _)). split; [|split; [|split]].
  - eexists. split; [apply dget_set_same|]. apply stable_set; [apply stable_type, (fields_stable _ _ _ F1)|apply part_not_standard, N].
  - intros k K1 K2. rewrite dget_set_other by exact K1. rewrite dget_set_other by exact K2. apply (fields_of_get _ _ _ F1).
  - rewrite dget_set_other by (intros X; symmetry in X; revert X; apply part_not_type, N). apply dget_set_same.
  - apply dget_set_same.
Qed.
Lemma step_id c D F m g f : dget $"grain" m = Some (PDict g) -> dget $"grain_type" g = Some (PStr (type_name c)) -> dget (part_name c) g = Some (PDict f) -> F f = Ok f ->
  with_key $"grain" (class_step c D F) m = Ok m.
Proof.
  intros G T P Q. apply (with_key_id _ _ _ g G). unfold class_step. rewrite (dset_same _ _ _ T), (ddefault_same _ _ _ _ P). apply (with_key_id _ _ _ f P Q).
Qed.
Lemma step_total c D F now m m1 : c <> KGrain -> grain_meta now m = Ok m1 ->
  (exists m2, with_key $"grain" (class_step c D F) m1 = Ok m2) <-> exists f', part_result c D F (fields m) f'.
Proof.
  intros N H1. split.
  - intros [m2 H2]. destruct (step_built _ _ _ _ _ _ _ N H1 H2) as (f' & P & _). eauto.
  - intros (f' & f & P & Q). destruct (meta_get _ _ _ H1) as (T & g1 & G1 & F1). eexists. apply with_key_ok. exists g1. eexists. split; [exact G1|]. split; [|reflexivity].
    unfold class_step. apply part_step. exists f, f'. split; [|split; [exact Q|reflexivity]].
    rewrite dget_set_other by (apply part_not_type, N). rewrite (fields_of_get _ _ _ F1), after_other by (apply part_not_standard, N). exact P.
Qed.
