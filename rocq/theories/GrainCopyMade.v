(** The grains that constructors make can be built again; copies of events. *)
From Coq Require Import String Lia ZifyBool.
From Verif Require Import Base BaseProofs PyValue PyValueProofs JsonProofs CogEnums VideoLayout GrainObj BuildSpec BuildProofs BuildMain BuildKw Event EventSpec EventProofs EventMain GrainSet GrainSetSpec GrainSetProofs GrainSetMain GrainCopy GrainCopySpec GrainCopyProofs.
Local Open Scope list_scope.

Lemma class_of_name c g m : dget $"grain" m = Some (PDict g) -> c <> KGrain -> dget $"grain_type" g = Some (PStr (type_name c)) -> class_for m = Ok c.
Proof. intros G N T. unfold class_for. rewrite G. cbn [as_dict rbind]. rewrite T. destruct c; [destruct N; reflexivity|vm_compute; reflexivity..]. Qed.
Lemma init_class c now m a o : init c now m a = Ok o -> o_class o = c.
Proof.
  intros H. rewrite init_steps in H. apply rbind_ok in H as (? & _ & H). apply rbind_ok in H as (? & _ & H). apply rbind_ok in H as (? & _ & H). apply Ok_eq in H. subst o. reflexivity.
Qed.
Lemma init_plain_faithful c now m a o : not_bytes c a -> (c = KGrain -> class_for m = Ok KGrain) -> init c now m a = Ok o -> faithful o.
Proof.
  intros NB K H. pose proof (init_class _ _ _ _ _ H) as C. destruct (init_built _ _ _ _ _ NB H) as [B _]. assert (NN : not_bytes c ANone) by (destruct c; exact I). split.
  - rewrite C. destruct (class_dec c) as [E|N].
    + rewrite E in *. exact (class_again _ _ _ _ (K eq_refl) B).
    + destruct (b_dict _ _ _ _ B) as [g G]. pose proof (b_type _ _ _ _ B N) as T. rewrite (fields_dict _ _ G) in T. exact (class_of_name c g _ G N T).
  - intros now'. rewrite C, (init_again c now now' m a ANone o NB NN H). f_equal. unfold mk. destruct c; reflexivity.
Qed.
(** An event whose payload was assigned. *)
Lemma edit_settled f o o' : settled o -> o_class o = KEvent -> edit f o = (o', None) ->
  (forall d d', f d = (d', None) -> forall k, dget k d <> None -> dget k d' <> None) -> settled o'.
Proof.
  intros [C NS (g & G & S & P)] K E F. rewrite K in *. destruct (P ltac:(discriminate)) as (T & d & D & PS). unfold edit, ditem in E. rewrite G in E. cbn [rbind as_dict] in E. cbn [part_name] in D. rewrite D in E. cbn [rbind as_dict] in E.
  destruct (f d) as [d' x] eqn:FD. apply pair_equal_spec in E as [<- ->]. cbn [o_meta o_class] in *. set (g' := dset $"event_payload" (PDict d') g).
  assert (G' : dget $"grain" (dset $"grain" (PDict g') (o_meta o)) = Some (PDict g')) by apply dget_set_same.
  assert (T' : dget $"grain_type" g' = dget $"grain_type" g) by (apply dget_set_other; differ). constructor; cbn [o_meta o_class]; rewrite ?K.
  - rewrite (class_of_type (o_meta o) (dset $"grain" (PDict g') (o_meta o)) g g' G G' T'). exact C.
  - rewrite dget_set_other by differ. exact NS.
  - exists g'. split; [exact G'|]. split; [apply stable_set; [exact S|apply (part_not_standard KEvent); discriminate]|]. intros _. rewrite T'. split; [exact T|]. exists d'. split; [apply dget_set_same|].
    destruct PS as (A & _ & _). split; [intros k Q; exact (F _ _ FD k (A k Q))|]. split; [intros k []|discriminate].
Qed.
Lemma set_payload_keys b d d' : set_payload b d = (d', None) -> forall k, dget k d <> None -> dget k d' <> None.
Proof.
  unfold set_payload. destruct (parse_payload b); [|discriminate]. destruct (py_iter _); [|discriminate]. destruct (read_entries _) as [r x]. intros E. injection E as <- ->. intros k K.
  assert (X : forall j v (e : dict), dget k e <> None -> dget k (dset j v e) <> None).
  { intros j v e N. destruct (list_eq_dec Z.eq_dec k j) as [->|M]; [rewrite dget_set_same; discriminate|rewrite dget_set_other by exact M; exact N]. }
  repeat apply X. exact K.
Qed.
Theorem init_faithful c now m a o : (c = KGrain -> class_for m = Ok KGrain) -> init c now m a = Ok o -> faithful o.
Proof.
  intros K H. assert (Z : not_bytes c a \/ (c = KEvent /\ exists b, a = ABytes b)) by (destruct c, a; try (left; exact I); right; eauto). destruct Z as [NB|(-> & b & ->)]; [exact (init_plain_faithful c now m a o NB K H)|].
  rewrite construct_bytes in H. apply rbind_ok in H as (o0 & H0 & H). cbn [apply_op] in H. destruct (edit (set_payload b) o0) as [o1 [x|]] eqn:E; [discriminate H|]. apply Ok_eq in H. subst o1.
  apply settled_faithful. apply (edit_settled (set_payload b) o0 o); [|exact (init_class _ _ _ _ _ H0)|exact E|exact (set_payload_keys b)]. apply faithful_settled. exact (init_plain_faithful KEvent now m ANone o0 I ltac:(discriminate) H0).
Qed.
Theorem factory_faithful now m a o : GrainFactory now m a = Ok o -> faithful o.
Proof. intros H. apply rbind_ok in H as (c & C & H). apply (init_faithful c now m a o); [intros ->; exact C|exact H]. Qed.

(** From keyword arguments. *)
Lemma kw_settled c now k f d w : c <> KGrain -> part_settled c f -> settled (kw_obj c now k (PDict f) d w).
Proof.
  intros N P. constructor; cbn [o_class o_meta kw_obj].
  - refine (class_of_name c _ _ _ N _); [unfold kw_grain; reflexivity|reflexivity].
  - discriminate.
  - eexists. split; [reflexivity|]. split.
    + intros s I. destruct k as [src flow origin sync creation [rn rd] [dn dd]]. cbn in I.
      repeat (destruct I as [<-|I]; [eexists; split; [vm_compute; reflexivity|]; split; [try reflexivity; destruct src, flow; reflexivity|intros J; try reflexivity; exfalso; revert J; vm_compute; intuition congruence]|]). destruct I.
    + intros _. split; [reflexivity|]. exists f. split; [destruct c; try reflexivity; destruct N; reflexivity|exact P].
Qed.
Ltac settle := split; [intros n I; cbn [map fst part_defaults In] in I; repeat (destruct I as [<-|I]; [vm_compute; discriminate|]); destruct I|
  split; [intros n I; cbn [numbers In] in I; repeat (destruct I as [<-|I]; [eexists; vm_compute; reflexivity|]); destruct I|try discriminate]].
Theorem kw_video_faithful now k fmt w h layout a o : kw_video now k fmt w h layout a = Ok o -> faithful o.
Proof.
  unfold kw_video. intros H. change (PDict [($"format", PInt fmt); ($"width", PInt w); ($"height", PInt h); ($"layout", PInt layout); ($"extension", PInt 0); ($"components", PList [])])
    with (video_part_kw fmt w h layout (PList [])) in H. rewrite video_init_kw in H. apply rbind_ok in H as (a' & _ & H). apply Ok_eq in H. set (cs := map comp_dict (components_for_format fmt w h)) in *. clearbody cs.
  destruct (kw_shape KVideo now k (video_part_kw fmt w h layout (PList cs)) a') as (d & x & S). cbn [type_name part_name] in S. rewrite S in H. subst o. apply settled_faithful, kw_settled; [discriminate|]. settle.
  intros _. exists (PList cs). split; [reflexivity|]. destruct cs; [left; reflexivity|right]. eexists. split; [reflexivity|]. unfold zlen. cbn [List.length]. lia.
Qed.
Theorem kw_audio_faithful now k fmt samples channels rate a o : kw_audio now k fmt samples channels rate a = Ok o -> faithful o.
Proof.
  unfold kw_audio. intros H. change (PDict [($"format", PInt fmt); ($"samples", PInt samples); ($"channels", PInt channels); ($"sample_rate", PInt rate)])
    with (audio_part_kw fmt samples channels rate) in H. rewrite audio_init_kw in H. apply rbind_ok in H as (a' & _ & H). apply Ok_eq in H.
  destruct (kw_shape KAudio now k (audio_part_kw fmt samples channels rate) a') as (d & x & S). cbn [type_name part_name] in S. rewrite S in H. subst o. apply settled_faithful, kw_settled; [discriminate|]. settle.
Qed.
Theorem kw_coded_audio_faithful now k fmt samples channels priming remainder rate len a o : kw_coded_audio now k fmt samples channels priming remainder rate len a = Ok o -> faithful o.
Proof.
  unfold kw_coded_audio. intros H. change (PDict [($"format", PInt fmt); ($"samples", PInt samples); ($"channels", PInt channels); ($"priming", PInt priming); ($"remainder", PInt remainder); ($"sample_rate", PInt rate)])
    with (coded_audio_part_kw fmt samples channels priming remainder rate) in H. rewrite coded_audio_init_kw in H. apply rbind_ok in H as (a' & _ & H). apply Ok_eq in H.
  destruct (kw_shape KCodedAudio now k (coded_audio_part_kw fmt samples channels priming remainder rate) a') as (d & x & S). cbn [type_name part_name] in S. rewrite S in H. subst o. apply settled_faithful, kw_settled; [discriminate|]. settle.
Qed.
Theorem kw_coded_video_faithful now k fmt ow oh cw ch key temporal len layout offs a o : kw_coded_video now k fmt ow oh cw ch key temporal len layout offs a = Ok o -> faithful o.
Proof.
  unfold kw_coded_video. intros H. set (cw' := match cw with Some z => z | None => ow end) in *. set (ch' := match ch with Some z => z | None => oh end) in *.
  replace ([($"format", PInt fmt); ($"origin_width", PInt ow); ($"origin_height", PInt oh); ($"coded_width", PInt cw'); ($"coded_height", PInt ch'); ($"layout", PInt layout)] ++
           opt_field $"is_key_frame" (option_map PBool key) ++ opt_field $"temporal_offset" (option_map PInt temporal))
    with ([($"format", PInt fmt); ($"origin_width", PInt ow); ($"origin_height", PInt oh); ($"coded_width", PInt cw'); ($"coded_height", PInt ch'); ($"layout", PInt layout)] ++
           opt_field $"is_key_frame" (option_map PBool key) ++ opt_field $"temporal_offset" (option_map PInt temporal) ++ []) in H by (rewrite app_nil_r; reflexivity).
  match type of H with context [($"cog_coded_frame", ?p)] => change p with (coded_video_part_kw fmt ow oh cw' ch' layout key temporal []) in H end.
  rewrite coded_video_init_kw in H. apply rbind_ok in H as (a' & _ & H). apply Ok_eq in H. match type of H with context [($"cog_coded_frame", ?p)] => set (part := p) in * end.
  destruct (kw_shape KCodedVideo now k part a') as (d & x & S). cbn [type_name part_name] in S. rewrite S in H. subst o. apply settled_faithful, kw_settled; [discriminate|]. destruct key, temporal, offs; settle.
Qed.
Theorem kw_event_faithful now k kind topic a o : kw_event now k kind topic a = Ok o -> faithful o.
Proof. apply (init_faithful KEvent). discriminate. Qed.
Theorem kw_factory_faithful now k a o : kw_factory now k a = Ok o -> faithful o.
Proof. unfold kw_factory. destruct (k_src k), (k_flow k); try discriminate. apply (init_faithful KGrain now (kw_grain $"empty" now k []) ANone o). intros _. reflexivity. Qed.
(** All but plain grains that say they are something else. *)
Theorem made_faithful o : made o -> (o_class o = KGrain -> class_for (o_meta o) = Ok KGrain) -> faithful o.
Proof.
  intros [c now m a o' K H|now m a o' K H|now k a o' H|now k fmt w h layout a o' H|now k fmt ow oh cw ch key temporal len layout offs a o' H|now k fmt samples channels rate a o' H
    |now k fmt samples channels priming remainder rate len a o' H|now k kind topic a o' H] T.
  - apply (init_faithful c now m a o'); [|exact H]. intros ->. rewrite (init_class _ _ _ _ _ H) in T. specialize (T eq_refl). destruct (init_built KGrain now m a o' I H) as [[_ [g G] F _ _] _].
    specialize (F $"grain_type" (or_introl eq_refl)). rewrite (fields_dict _ _ G) in F. unfold field_after in F. change (dget $"grain_type" (standard now (fields m))) with (Some (BuildSpec.given (fields m) $"grain_type" (PStr $"empty"))) in F. cbn [option_map] in F.
    unfold class_for in T. rewrite G in T. cbn [as_dict rbind] in T. rewrite F in T. unfold class_for. unfold fields in T, F.
    assert (P : forall v, plain $"grain_type" v = v) by (intros v; destruct v; reflexivity). rewrite P in T.
    pose proof (proj1 (init_total KGrain now m a I) (ex_intro _ _ H)) as [CB _ _ _ _]. destruct (dget $"grain" m) as [v|]; [|reflexivity]. destruct v; try (destruct CB; fail). cbn [as_dict rbind]. unfold BuildSpec.given in T. destruct (dget $"grain_type" d); [exact T|reflexivity].
  - exact (factory_faithful _ _ _ _ H).
  - exact (kw_factory_faithful _ _ _ _ H).
  - exact (kw_video_faithful _ _ _ _ _ _ _ _ H).
  - exact (kw_coded_video_faithful _ _ _ _ _ _ _ _ _ _ _ _ _ _ H).
  - exact (kw_audio_faithful _ _ _ _ _ _ _ _ H).
  - exact (kw_coded_audio_faithful _ _ _ _ _ _ _ _ _ _ _ H).
  - exact (kw_event_faithful _ _ _ _ _ _ H).
Qed.
