(** Every grain that a constructor makes has the shape that assignments need. *)
From Coq Require Import String Lia.
From Verif Require Import Base BaseProofs PyValue PyValueProofs JsonProofs CogEnums GrainObj BuildSpec BuildProofs CompareSym GrainSet GrainSetSpec GrainSetProofs GrainSetMain.
Local Open Scope list_scope.

Definition keeps (f : dict -> res dict) : Prop := forall d d', f d = Ok d' -> NoDup (map fst d) -> NoDup (map fst d').
Lemma ddefault_nodup k v (d : dict) : NoDup (map fst d) -> NoDup (map fst (ddefault k v d)).
Proof. intros N. unfold ddefault. destruct (dhas k d); [exact N|apply dset_nodup, N]. Qed.
Lemma keeps_conv k f : keeps (conv k f).
Proof. intros d d' H N. apply conv_ok in H as (v & w & _ & _ & ->). apply dset_nodup, N. Qed.
Lemma keeps_bind f g : keeps f -> keeps g -> keeps (fun d => rbind (f d) g).
Proof. intros F G d d' H N. apply rbind_ok in H as (e & A & B). exact (G _ _ B (F _ _ A N)). Qed.
Lemma keeps_coded_frame : keeps coded_frame_fields.
Proof. intros d d' H N. apply rbind_ok in H as (e & A & B). apply keeps_conv in A, B. apply B, A. repeat apply ddefault_nodup. exact N. Qed.
Lemma keeps_audio : keeps audio_fields.
Proof. intros d d' H N. apply keeps_conv in H. apply H. repeat apply ddefault_nodup. exact N. Qed.
Lemma keeps_coded_audio : keeps coded_audio_fields.
Proof. intros d d' H N. apply keeps_conv in H. apply H. repeat apply ddefault_nodup. exact N. Qed.
Lemma keeps_payload b : keeps (fun d => raising (set_payload b d)).
Proof.
  intros d d' H N. unfold set_payload in H. destruct (parse_payload b); [|discriminate H]. destruct (py_iter _); [|discriminate H]. destruct (read_entries a0) as [r [x|]]; [discriminate H|].
  apply Ok_eq in H. subst d'. repeat apply dset_nodup. exact N.
Qed.

(** The part of the fields of the class. *)
Definition part_ok (s : str) (g : dict) : Prop := exists d, dget s g = Some (PDict d) /\ NoDup (map fst d).
Definition distinct (s : str) (g : dict) : Prop := forall d, dget s g = Some (PDict d) -> NoDup (map fst d).
Lemma distinct_other s k v g : s <> k -> distinct s g -> distinct s (dset k v g).
Proof. intros N D d. rewrite dget_set_other by exact N. apply D. Qed.
Lemma with_key_part s F g g' : keeps F -> distinct s g -> with_key s F g = Ok g' -> part_ok s g'.
Proof. intros K D H. apply with_key_ok in H as (d & d' & A & B & ->). exists d'. split; [apply dget_set_same|exact (K _ _ B (D _ A))]. Qed.
Lemma part_from s D F g g' : keeps F -> NoDup (map fst D) -> distinct s g -> with_key s F (ddefault s (PDict D) g) = Ok g' -> part_ok s g'.
Proof.
  intros K N DS H. apply part_step in H as (f & f' & A & B & ->). exists f'. split; [apply dget_set_same|]. apply (K _ _ B). destruct A as [A|[_ ->]]; [exact (DS _ A)|exact N].
Qed.
Definition usual := map fst (standard 0 []).
Lemma meta_distinct s now m m1 : ~ In s usual -> distinct s (fields m) -> grain_meta now m = Ok m1 -> exists g, dget $"grain" m1 = Some (PDict g) /\ distinct s g.
Proof.
  intros N D H. apply meta_get in H as (_ & g & G & F). exists g. split; [exact G|]. intros d E. rewrite (fields_of_get _ _ _ F), after_other in E by exact N. exact (D d E).
Qed.
Lemma end_shaped c s F now m m1 m2 a : part_of c = Some s -> ~ In s usual -> distinct s (fields m) -> grain_meta now m = Ok m1 ->
  (forall g g', distinct s g -> F g = Ok g' -> part_ok s g') -> with_key $"grain" F m1 = Ok m2 -> shaped (mkO c m2 (o_data a) (o_wait a)).
Proof.
  intros P N D M K H. destruct (meta_distinct s now m m1 N D M) as (g & G & DG). apply with_key_ok in H as (g0 & g' & A & B & ->). rewrite G in A. injection A as <-.
  exists g'. cbn [o_meta o_class]. split; [apply dget_set_same|]. rewrite P. exact (K _ _ DG B).
Qed.
Ltac unusual := intros H; repeat (destruct H as [H|H]; [vm_compute in H; discriminate H|]); exact H.
Lemma obj_shaped c m a : shaped (mkO c m (o_data (grain_obj c m a)) (o_wait (grain_obj c m a))) -> shaped (grain_obj c m a).
Proof. destruct a; auto. Qed.

Lemma plain_shaped now m a o : new_grain now m a = Ok o -> shaped o.
Proof. intros H. apply rbind_ok in H as (m1 & M & E). apply Ok_eq in E. subst o. apply obj_shaped. apply meta_get in M as (_ & g & G & _). exists g. split; [exact G|exact I]. Qed.
Lemma video_shaped comps size now m a o : distinct $"cog_frame" (fields m) -> video_init comps size now m a = Ok o -> shaped o.
Proof.
  intros D H. apply rbind_ok in H as (a' & _ & H). apply rbind_ok in H as (m0 & C & H). apply rbind_ok in H as (m1 & M & H). apply rbind_ok in H as (m2 & S & E). apply Ok_eq in E. subst o. apply obj_shaped.
  refine (end_shaped KVideo $"cog_frame" video_fields now m0 m1 m2 _ eq_refl _ _ M _ S); [unusual| |].
  - apply with_key_ok in C as (g & g' & G & F & ->). rewrite (fields_dict _ _ G) in D. unfold fields. rewrite dget_set_same. unfold fill_components in F. destruct (dhas $"cog_frame" g); [|apply Ok_eq in F; subst g'; exact D].
    apply with_key_ok in F as (f & f' & A & B & ->). intros d E. rewrite dget_set_same in E. injection E as <-. specialize (D _ A). destruct (dget $"components" f) as [v|].
    + apply rbind_ok in B as (n & _ & B). destruct (n =? 0); apply Ok_eq in B; subst f'; [apply dset_nodup|]; exact D.
    + apply Ok_eq in B. subst f'. apply dset_nodup, D.
  - intros g g' DG E. apply (part_from _ _ _ _ _ (keeps_bind _ _ (keeps_conv _ _) (keeps_conv _ _))) in E; [exact E| |].
    + cbn [map fst]. repeat (constructor; [unusual|]). constructor.
    + apply distinct_other; [discriminate|exact DG].
Qed.
Lemma section_part kind s F g g' : keeps F -> s <> $"grain_type" -> distinct s g -> section_fields kind s F g = Ok g' -> part_ok s g'.
Proof. intros K N D H. apply (part_from _ _ _ _ _ K) in H; [exact H|constructor|]. apply distinct_other; [exact N|exact D]. Qed.
Lemma coded_video_shaped len offs now m a o : distinct $"cog_coded_frame" (fields m) -> coded_video_init len offs now m a = Ok o -> shaped o.
Proof.
  intros D H. apply rbind_ok in H as (a' & _ & H). apply rbind_ok in H as (m0 & C & H). apply rbind_ok in H as (m1 & M & H). apply rbind_ok in H as (m2 & S & E). apply Ok_eq in E. subst o. apply obj_shaped.
  refine (end_shaped KCodedVideo $"cog_coded_frame" _ now m0 m1 m2 _ eq_refl _ _ M _ S); [unusual| |intros g g'; apply section_part; [apply keeps_coded_frame|discriminate]].
  unfold set_offsets in C. destruct offs as [l|]; [|apply Ok_eq in C; subst m0; exact D]. destruct (dget $"grain" m) as [v|] eqn:G; [|apply Ok_eq in C; subst m0; exact D].
  apply rbind_ok in C as (g & A & C). destruct (dhas _ g); [|apply Ok_eq in C; subst m0; exact D]. apply with_key_ok in C as (g1 & g2 & G1 & C & ->). apply with_key_ok in C as (f & f' & F & X & ->). apply Ok_eq in X. subst f'.
  rewrite (fields_dict _ _ G1) in D. unfold fields. rewrite dget_set_same. intros d E. rewrite dget_set_same in E. injection E as <-. apply dset_nodup, D, F.
Qed.
Lemma audio_shaped size now m a o : distinct $"cog_audio" (fields m) -> audio_init size now m a = Ok o -> shaped o.
Proof.
  intros D H. apply rbind_ok in H as (a' & _ & H). apply rbind_ok in H as (m1 & M & H). apply rbind_ok in H as (m2 & S & E). apply Ok_eq in E. subst o. apply obj_shaped.
  refine (end_shaped KAudio $"cog_audio" _ now m m1 m2 _ eq_refl _ D M _ S); [unusual|intros g g'; apply section_part; [apply keeps_audio|discriminate]].
Qed.
Lemma coded_audio_shaped len now m a o : distinct $"cog_coded_audio" (fields m) -> coded_audio_init len now m a = Ok o -> shaped o.
Proof.
  intros D H. apply rbind_ok in H as (a' & _ & H). apply rbind_ok in H as (m1 & M & H). apply rbind_ok in H as (m2 & S & E). apply Ok_eq in E. subst o. apply obj_shaped.
  refine (end_shaped KCodedAudio $"cog_coded_audio" _ now m m1 m2 _ eq_refl _ D M _ S); [unusual|intros g g'; apply section_part; [apply keeps_coded_audio|discriminate]].
Qed.
Lemma event_shaped now m a o : distinct $"event_payload" (fields m) -> event_init now m a = Ok o -> shaped o.
Proof.
  intros D H. apply rbind_ok in H as (m1 & M & H). apply rbind_ok in H as (m2 & S & E). apply Ok_eq in E. subst o.
  refine (end_shaped KEvent $"event_payload" _ now m m1 m2 (mkO KEvent m2 None _) eq_refl _ D M _ S); [unusual|]. intros g g' DG E. refine (part_from _ _ _ _ _ _ _ _ E).
  - apply keeps_bind; [destruct a; [|apply keeps_payload|]; intros d d' H N; apply Ok_eq in H; subst d'; exact N|].
    intros d d' H N. apply Ok_eq in H. subst d'. repeat apply ddefault_nodup. exact N.
  - cbn [map fst]. repeat (constructor; [unusual|]). constructor.
  - apply distinct_other; [discriminate|exact DG].
Qed.

(** From metadata whose dictionaries have each key once. *)
Lemma distinct_from m s : pv_ok (PDict m) -> distinct s (fields m).
Proof.
  intros K d E. unfold fields in E. destruct (dget $"grain" m) as [v|] eqn:G; [|discriminate E]. destruct v; try discriminate E.
  pose proof (dict_ok _ _ _ (dict_ok _ _ _ K G) E) as X. inversion X. assumption.
Qed.
Theorem init_shaped c now m a o : pv_ok (PDict m) -> init c now m a = Ok o -> shaped o.
Proof.
  intros K H. destruct c; cbn [init] in H.
  - exact (plain_shaped _ _ _ _ H).
  - exact (video_shaped _ _ _ _ _ _ (distinct_from _ _ K) H).
  - exact (coded_video_shaped _ _ _ _ _ _ (distinct_from _ _ K) H).
  - exact (audio_shaped _ _ _ _ _ (distinct_from _ _ K) H).
  - exact (coded_audio_shaped _ _ _ _ _ (distinct_from _ _ K) H).
  - exact (event_shaped _ _ _ _ (distinct_from _ _ K) H).
Qed.
Theorem factory_shaped now m a o : pv_ok (PDict m) -> GrainFactory now m a = Ok o -> shaped o.
Proof. intros K H. apply rbind_ok in H as (c & _ & H). exact (init_shaped _ _ _ _ _ K H). Qed.

(** From keyword arguments. *)
Lemma kw_part kind now k s d : ~ In s usual -> fields (kw_grain kind now k [(s, PDict d)]) = fields (kw_grain kind now k []) ++ [(s, PDict d)].
Proof. intros _. reflexivity. Qed.
Lemma kw_distinct kind now k s d : ~ In s usual -> NoDup (map fst d) -> distinct s (fields (kw_grain kind now k [(s, PDict d)])).
Proof.
  intros N D e E. rewrite kw_part in E by exact N. rewrite dget_app in E. destruct (dget s (fields (kw_grain kind now k []))) as [v|] eqn:X.
  - destruct N. apply dget_in, (in_map fst) in X. clear - X. cbn in X. unfold usual. cbn. tauto.
  - cbn [dget] in E. rewrite zlist_eqb_refl in E. injection E as <-. exact D.
Qed.
Ltac single := cbn [map fst]; repeat (constructor; [unusual|]); constructor.
Theorem kw_video_shaped now k fmt w h layout a o : kw_video now k fmt w h layout a = Ok o -> shaped o.
Proof. apply video_shaped, kw_distinct; [unusual|single]. Qed.
Theorem kw_audio_shaped now k fmt samples channels rate a o : kw_audio now k fmt samples channels rate a = Ok o -> shaped o.
Proof. apply audio_shaped, kw_distinct; [unusual|single]. Qed.
Theorem kw_coded_video_shaped now k fmt ow oh cw ch key temporal len layout offs a o : kw_coded_video now k fmt ow oh cw ch key temporal len layout offs a = Ok o -> shaped o.
Proof. apply coded_video_shaped, kw_distinct; [unusual|]. destruct key, temporal; cbn [opt_field option_map app]; single. Qed.
Theorem kw_coded_audio_shaped now k fmt samples channels priming remainder rate len a o : kw_coded_audio now k fmt samples channels priming remainder rate len a = Ok o -> shaped o.
Proof. apply coded_audio_shaped, kw_distinct; [unusual|single]. Qed.
Theorem kw_event_shaped now k kind topic a o : kw_event now k kind topic a = Ok o -> shaped o.
Proof. apply event_shaped, kw_distinct; [unusual|single]. Qed.
Theorem kw_factory_shaped now k a o : kw_factory now k a = Ok o -> shaped o.
Proof. unfold kw_factory. destruct (k_src k), (k_flow k); try discriminate. apply plain_shaped. Qed.

Theorem made_shaped o : made o -> shaped o.
Proof.
  intros [c now m a o' K H|now m a o' K H|now k a o' H|now k fmt w h layout a o' H|now k fmt ow oh cw ch key temporal len layout offs a o' H|now k fmt samples channels rate a o' H
    |now k fmt samples channels priming remainder rate len a o' H|now k kind topic a o' H].
  - exact (init_shaped _ _ _ _ _ K H).
  - exact (factory_shaped _ _ _ _ K H).
  - exact (kw_factory_shaped _ _ _ _ H).
  - exact (kw_video_shaped _ _ _ _ _ _ _ _ H).
  - exact (kw_coded_video_shaped _ _ _ _ _ _ _ _ _ _ _ _ _ _ H).
  - exact (kw_audio_shaped _ _ _ _ _ _ _ _ H).
  - exact (kw_coded_audio_shaped _ _ _ _ _ _ _ _ _ _ _ H).
  - exact (kw_event_shaped _ _ _ _ _ _ H).
Qed.
