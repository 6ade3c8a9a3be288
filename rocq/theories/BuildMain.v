From Coq Require Import String Lia.
From Verif Require Import Base BaseProofs PyValue PyValueProofs Json JsonProofs CogEnums VideoLayout GrainObj BuildSpec BuildProofs.
Local Open Scope list_scope.

Definition as_int (v : pv) : res pv := rbind (to_int v) (fun z => Ok (PInt z)).
Definition int_convs (names : list str) : list (str * (pv -> res pv)) := map (fun k => (k, as_int)) names.
Lemma int_convs_names names : map fst (int_convs names) = names.
Proof. unfold int_convs. rewrite map_map. apply map_id. Qed.
Definition numbered (names : list str) (k : str) (v : pv) : pv :=
  if existsb (zlist_eqb k) names then match to_int v with Ok z => PInt z | Err _ => v end else v.
Lemma dget_int_convs names k : dget k (int_convs names) = if existsb (zlist_eqb k) names then Some as_int else None.
Proof. induction names as [|n names IH]; cbn [int_convs map dget existsb]; [reflexivity|]. destruct (zlist_eqb k n); [reflexivity|exact IH]. Qed.
Lemma int_convs_get names d d' : NoDup names -> convs (int_convs names) d = Ok d' -> forall k, dget k d' = option_map (numbered names k) (dget k d).
Proof.
  intros N H k. assert (N' : NoDup (map fst (int_convs names))) by (rewrite int_convs_names; exact N).
  pose proof (convs_ok _ N' _ _ H k) as C. rewrite dget_int_convs in C. unfold numbered. destruct (existsb (zlist_eqb k) names).
  - destruct C as (v & w & V & W & ->). rewrite V. cbn [option_map]. f_equal. apply rbind_ok in W as (z & -> & W). apply Ok_eq in W. congruence.
  - rewrite C. destruct (dget k d); reflexivity.
Qed.
Lemma int_convs_total names d : NoDup names -> (exists d', convs (int_convs names) d = Ok d') <-> forall k, In k names -> exists v z, dget k d = Some v /\ to_int v = Ok z.
Proof.
  intros N. assert (N' : NoDup (map fst (int_convs names))) by (rewrite int_convs_names; exact N). rewrite (convs_total _ N'). unfold int_convs. split.
  - intros H k Hk. destruct (H k as_int) as (v & w & V & W); [apply in_map_iff; exists k; auto|]. apply rbind_ok in W as (z & Z & _). eauto.
  - intros H k f I. apply in_map_iff in I as (x & E & I). injection E as <- <-. destruct (H x I) as (v & z & V & Z). exists v, (PInt z). split; [exact V|]. unfold as_int. rewrite Z. reflexivity.
Qed.
Lemma int_convs_id names d : (forall k, In k names -> exists z, dget k d = Some (PInt z)) -> convs (int_convs names) d = Ok d.
Proof.
  intros H. apply convs_id. intros k f I. apply in_map_iff in I as (x & E & I). injection E as <- <-. destruct (H x I) as [z Z]. exists (PInt z). split; [exact Z|reflexivity].
Qed.

(** ** The parts of the classes other than VideoGrain. *)
Definition part_fun (c : gclass) (f : dict) : res dict :=
  match c with KVideo => convs (int_convs (numbers c)) f | _ => convs (int_convs (numbers c)) (fill (part_defaults c) f) end.
Definition part_start (c : gclass) : dict := match c with KVideo | KEvent => part_if_missing c | _ => [] end.
Lemma numbers_keys c : NoDup (numbers c).
Proof. destruct c; cbn [numbers]; sorted_keys. Qed.
Lemma part_get c f f' : c <> KVideo -> part_fun c f = Ok f' -> forall k,
  dget k f' = option_map (part_plain c k) (match dget k f with Some v => Some v | None => dget k (part_defaults c) end).
Proof.
  intros N H k. assert (H' : convs (int_convs (numbers c)) (fill (part_defaults c) f) = Ok f') by (destruct c; try exact H; destruct N; reflexivity).
  rewrite (int_convs_get _ _ _ (numbers_keys c) H' k), dget_fill. destruct (match dget k f with Some v => Some v | None => dget k (part_defaults c) end) as [v|]; [|reflexivity].
  cbn [option_map]. f_equal. unfold numbered, part_plain. destruct (existsb _ _); [reflexivity|]. destruct c; try reflexivity. destruct N; reflexivity.
Qed.
Lemma part_after_get c D F g f' : c <> KVideo -> c <> KGrain -> D = part_start c -> (forall f, F f = part_fun c f) -> part_result c D F g f' ->
  forall k, dget k f' = part_after c g k.
Proof.
  intros N N' -> EF (f & P & Q) k. rewrite EF in Q. rewrite (part_get _ _ _ N Q). unfold part_after. destruct P as [-> | [-> ->]]; [reflexivity|]. f_equal.
  destruct c; try reflexivity; [destruct N; reflexivity|]. cbn [part_start part_if_missing]. destruct (dget k (part_defaults KEvent)); reflexivity.
Qed.
Lemma part_id c f f' : c <> KVideo -> part_fun c f = Ok f' -> part_fun c f' = Ok f'.
Proof.
  intros N H. assert (U : part_fun c f' = convs (int_convs (numbers c)) (fill (part_defaults c) f')) by (destruct c; try reflexivity; destruct N; reflexivity). rewrite U.
  rewrite fill_id.
  - apply int_convs_id. intros k Hk. rewrite (part_get _ _ _ N H). assert (D : exists v, match dget k f with Some v => Some v | None => dget k (part_defaults c) end = Some v).
    { destruct (dget k f); [eauto|]. destruct c; cbn [numbers In] in Hk; try (destruct N; reflexivity); repeat (destruct Hk as [<-|Hk]; [eexists; vm_compute; reflexivity|]); destruct Hk. }
    destruct D as [v D]. rewrite D. cbn [option_map]. unfold part_plain. replace (existsb (zlist_eqb k) (numbers c)) with true;
      [|symmetry; apply existsb_exists; exists k; split; [exact Hk|apply zlist_eqb_refl]].
    assert (X : exists d', convs (int_convs (numbers c)) (fill (part_defaults c) f) = Ok d') by (exists f'; destruct c; try exact H; destruct N; reflexivity).
    destruct (proj1 (int_convs_total _ _ (numbers_keys c)) X k Hk) as (w & z & W & Z). rewrite dget_fill, D in W. injection W as <-. rewrite Z. eauto.
  - intros k Hk. rewrite (part_get _ _ _ N H). destruct (dget k f); [discriminate|]. destruct (dget k (part_defaults c)) eqn:E; [discriminate|].
    apply dget_none in E. contradiction.
Qed.
Lemma part_total c f : c <> KVideo -> (exists f', part_fun c f = Ok f') <-> forall k v, In k (numbers c) -> dget k f = Some v -> exists z, to_int v = Ok z.
Proof.
  intros N. assert (U : part_fun c f = convs (int_convs (numbers c)) (fill (part_defaults c) f)) by (destruct c; try reflexivity; destruct N; reflexivity). rewrite U.
  rewrite (int_convs_total _ _ (numbers_keys c)). split.
  - intros H k v Hk E. destruct (H k Hk) as (w & z & W & Z). rewrite dget_fill, E in W. injection W as <-. eauto.
  - intros H k Hk. rewrite dget_fill. destruct (dget k f) as [v|] eqn:E; [destruct (H k v Hk E) as [z Z]; eauto|].
    destruct c; cbn [numbers In] in Hk; try (destruct N; reflexivity); repeat (destruct Hk as [<-|Hk]; [eexists; eexists; split; vm_compute; reflexivity|]); destruct Hk.
Qed.

(** ** The constructors as steps. *)
Definition class_fields (c : gclass) (a : darg) : dict -> res dict :=
  match c with
  | KVideo => video_fields | KCodedVideo => section_fields $"coded_video" $"cog_coded_frame" coded_frame_fields
  | KAudio => section_fields $"audio" $"cog_audio" audio_fields | KCodedAudio => section_fields $"coded_audio" $"cog_coded_audio" coded_audio_fields
  | KEvent => event_fields a | KGrain => Ok
  end.
Definition step_fun (c : gclass) (f : dict) : res dict :=
  match c with
  | KGrain => Ok f
  | KVideo => rbind (int_field $"format" f) (int_field $"layout")
  | KCodedVideo => coded_frame_fields f | KAudio => audio_fields f | KCodedAudio => coded_audio_fields f
  | KEvent => Ok (fill (part_defaults KEvent) f)
  end.
Lemma step_fun_part c f : c <> KGrain -> step_fun c f = part_fun c f.
Proof.
  intros N. destruct c; [destruct N; reflexivity|..]; unfold step_fun, part_fun; cbn [numbers int_convs map convs].
  - change as_int with (fun v => rbind (to_int v) (fun z => Ok (PInt z))). change (conv $"format" _) with (int_field $"format"). destruct (int_field _ f); [|reflexivity].
    cbn [rbind]. symmetry. apply rbind_assoc_end.
  - unfold coded_frame_fields, fill. cbn [part_defaults fold_left fst snd]. change UNKNOWN_FRAME with 0xfffffffe. cbv zeta.
    change as_int with (fun v => rbind (to_int v) (fun z => Ok (PInt z))). change (conv $"format" _) with (int_field $"format"). change (conv $"layout" _) with (int_field $"layout").
    destruct (int_field _ _); [|reflexivity]. cbn [rbind]. symmetry. apply rbind_assoc_end.
  - symmetry. apply rbind_assoc_end.
  - symmetry. apply rbind_assoc_end.
  - reflexivity.
Qed.
Definition not_bytes (c : gclass) (a : darg) : Prop := match c, a with KEvent, ABytes _ => False | _, _ => True end.
Lemma class_fields_step c a g : c <> KGrain -> not_bytes c a -> class_fields c a g = class_step c (part_start c) (step_fun c) g.
Proof.
  intros N B. destruct c; try reflexivity; [destruct N; reflexivity|]. destruct a; [reflexivity|destruct B|reflexivity].
Qed.
Definition before (c : gclass) (m : dict) : res dict := match c with KVideo => with_key $"grain" (fill_components (PList [])) m | _ => Ok m end.
Definition mk (c : gclass) (m : dict) (a : darg) : gobj := mkO c m (fst (payload_after c a)) (snd (payload_after c a)).
Lemma init_steps c now m a : init c now m a = rbind (before c m) (fun m => rbind (grain_meta now m) (fun m =>
  rbind (match c with KGrain => Ok m | _ => with_key $"grain" (class_fields c a) m end) (fun m => Ok (mk c m a)))).
Proof.
  assert (Z : forall n, n = 0 -> or_zeros n a = Ok (match a with ANone => ABytes [] | _ => a end)) by (intros n ->; destruct a; reflexivity).
  assert (L : or_zeros (arg_length a) a = Ok (match a with ANone => ABytes [] | _ => a end)) by (destruct a; reflexivity).
  destruct c; cbn [init before rbind class_fields].
  - unfold new_grain. destruct (grain_meta now m); [|reflexivity]. destruct a; reflexivity.
  - unfold video_init. rewrite Z by reflexivity. cbn [rbind]. destruct (with_key _ _ m); [|reflexivity]. cbn [rbind]. destruct (grain_meta now a0); [|reflexivity]. cbn [rbind].
    destruct (with_key _ _ a1); [|reflexivity]. destruct a; reflexivity.
  - unfold coded_video_init. rewrite L. cbn [rbind set_offsets]. destruct (grain_meta now m); [|reflexivity]. cbn [rbind]. destruct (with_key _ _ a0); [|reflexivity]. destruct a; reflexivity.
  - unfold audio_init. rewrite Z by reflexivity. cbn [rbind]. destruct (grain_meta now m); [|reflexivity]. cbn [rbind]. destruct (with_key _ _ a0); [|reflexivity]. destruct a; reflexivity.
  - unfold coded_audio_init. rewrite L. cbn [rbind]. destruct (grain_meta now m); [|reflexivity]. cbn [rbind]. destruct (with_key _ _ a0); [|reflexivity]. destruct a; reflexivity.
  - unfold event_init. destruct (grain_meta now m); [|reflexivity]. cbn [rbind]. destruct (with_key _ _ a0); [|reflexivity]. destruct a; reflexivity.
Qed.

(** ** VideoGrain: the components first. *)
Definition with_comps (f : dict) : res dict :=
  match dget $"components" f with
  | None => Ok (dset $"components" (PList []) f)
  | Some v => rbind (py_len v) (fun n => if n =? 0 then Ok (dset $"components" (PList []) f) else Ok f)
  end.
Lemma comps_step g g' : fill_components (PList []) g = Ok g' <->
  (dget $"cog_frame" g = None /\ g' = g) \/ exists f f', dget $"cog_frame" g = Some (PDict f) /\ with_comps f = Ok f' /\ g' = dset $"cog_frame" (PDict f') g.
Proof.
  unfold fill_components, dhas. destruct (dget $"cog_frame" g) as [v|] eqn:E.
  - rewrite with_key_ok. rewrite E. split.
    + intros (d & d' & A & B & ->). right. exists d, d'. auto.
    + intros [[A _]|(d & d' & A & B & ->)]; [discriminate A|]. exists d, d'. auto.
  - split.
    + intros H. apply Ok_eq in H. left; auto.
    + intros [[_ ->]|(d & d' & A & _)]; [reflexivity|discriminate A].
Qed.
Definition empty_value (v : pv) : bool := match py_len v with Ok n => n =? 0 | Err _ => false end.
Lemma with_comps_get f f' : with_comps f = Ok f' -> forall k,
  dget k f' = if zlist_eqb k $"components" then Some (match dget k f with Some v => if empty_value v then PList [] else v | None => PList [] end) else dget k f.
Proof.
  intros H k. assert (O : forall k v, zlist_eqb k $"components" = false -> dget k (dset $"components" v f) = dget k f).
  { intros k0 v N. apply dget_set_other. intros ->. rewrite zlist_eqb_refl in N. discriminate N. }
  unfold with_comps in H. destruct (dget $"components" f) as [v|] eqn:E.
  - apply rbind_ok in H as (n & L & H). destruct (n =? 0) eqn:Z; apply Ok_eq in H; subst f'.
    + destruct (zlist_eqb k _) eqn:K; [|apply O, K]. apply zlist_eqb_eq in K. subst k. rewrite dget_set_same, E. unfold empty_value. rewrite L, Z. reflexivity.
    + destruct (zlist_eqb k _) eqn:K; [|reflexivity]. apply zlist_eqb_eq in K. subst k. rewrite E. unfold empty_value. rewrite L, Z. reflexivity.
  - apply Ok_eq in H; subst f'. destruct (zlist_eqb k _) eqn:K; [|apply O, K]. apply zlist_eqb_eq in K. subst k. rewrite dget_set_same, E. reflexivity.
Qed.
Lemma with_comps_total f : (exists f', with_comps f = Ok f') <-> forall v, dget $"components" f = Some v -> exists n, py_len v = Ok n.
Proof.
  unfold with_comps. destruct (dget $"components" f) as [v|].
  - split.
    + intros [f' H] w E. injection E as <-. apply rbind_ok in H as (n & L & _). eauto.
    + intros H. destruct (H v eq_refl) as [n ->]. cbn [rbind]. destruct (n =? 0); eauto.
  - split; [discriminate|eauto].
Qed.
Lemma field_after_ext now g g' s : ~ In s (map fst (standard 0 [])) -> (forall k, k <> s -> dget k g = dget k g') -> forall k, k <> s -> field_after now g k = field_after now g' k.
Proof.
  intros N E k K. unfold field_after. assert (S : standard now g = standard now g').
  { unfold standard, given. rewrite !E; [reflexivity|..]; intros X; apply N; rewrite <- X; vm_compute; tauto. }
  rewrite S, (E k K). reflexivity.
Qed.
Lemma before_video m m0 : before KVideo m = Ok m0 -> (forall k, k <> $"grain" -> dget k m0 = dget k m) /\
  (exists g, dget $"grain" m = Some (PDict g)) /\ (exists g, dget $"grain" m0 = Some (PDict g)) /\
  (forall k, k <> $"cog_frame" -> dget k (fields m0) = dget k (fields m)) /\
  ((dget $"cog_frame" (fields m) = None /\ dget $"cog_frame" (fields m0) = None) \/
   exists f f', dget $"cog_frame" (fields m) = Some (PDict f) /\ with_comps f = Ok f' /\ dget $"cog_frame" (fields m0) = Some (PDict f')).
Proof.
  intros H. unfold before in H. apply with_key_ok in H as (g & g' & G & F & ->). rewrite (fields_dict _ _ G), (fields_dict _ _ (dget_set_same _ _ _)).
  split; [intros k K; apply dget_set_other, K|]. split; [eauto|]. split; [eexists; apply dget_set_same|].
  apply comps_step in F as [[E ->]|(f & f' & E & W & ->)].
  - split; [reflexivity|]. left. auto.
  - split; [intros k K; apply dget_set_other, K|]. right. exists f, f'. split; [exact E|]. split; [exact W|]. apply dget_set_same.
Qed.
Lemma video_part g0 g f' : (dget $"cog_frame" g = None /\ dget $"cog_frame" g0 = None) \/
   (exists f f', dget $"cog_frame" g = Some (PDict f) /\ with_comps f = Ok f' /\ dget $"cog_frame" g0 = Some (PDict f')) ->
  part_result KVideo (part_start KVideo) (step_fun KVideo) g0 f' -> forall k, dget k f' = part_after KVideo g k.
Proof.
  intros B (f & P & Q) k. rewrite step_fun_part in Q by discriminate. pose proof (int_convs_get _ _ _ (numbers_keys KVideo) Q k) as G. rewrite G. clear G Q. cbn [part_name] in P.
  unfold part_after. cbn [part_name]. destruct B as [[B0 B1]|(f0 & f1 & B0 & W & B1)]; rewrite B1 in P.
  - rewrite B0. destruct P as [P|[_ ->]]; [discriminate P|]. cbn [part_start]. destruct (dget k (part_if_missing KVideo)) as [v|] eqn:E; [|reflexivity]. cbn [option_map]. f_equal.
    apply dget_in in E. cbn [In part_if_missing] in E. repeat (destruct E as [E|E]; [injection E as <- <-; vm_compute; reflexivity|]). destruct E.
  - rewrite B0. destruct P as [P|[P _]]; [|discriminate P]. injection P as <-. rewrite (with_comps_get _ _ W). cbn [part_defaults dget].
    destruct (zlist_eqb k $"components") eqn:K.
    + apply zlist_eqb_eq in K. subst k. cbn [option_map].
      change (numbered (numbers KVideo) $"components") with (fun v : pv => v). destruct (dget $"components" f0) as [v|] eqn:E; [|reflexivity]. cbn [option_map]. f_equal.
      assert (L : exists n, py_len v = Ok n) by (apply (proj1 (with_comps_total f0) (ex_intro _ f1 W)); exact E).
      destruct L as [n L]. unfold empty_value. rewrite L. unfold part_plain. change (existsb (zlist_eqb $"components") (numbers KVideo)) with false. cbv iota.
      change (zlist_eqb $"components" $"components") with true. cbv iota.
      destruct v; try discriminate L; cbn [py_len] in L; apply Ok_eq in L; subst n.
      * destruct s; [reflexivity|]. replace (zlen (z :: s) =? 0) with false; [reflexivity|]. unfold zlen. cbn [List.length]. lia.
      * destruct l; [reflexivity|]. replace (zlen (p :: l) =? 0) with false; [reflexivity|]. unfold zlen. cbn [List.length]. lia.
      * destruct d; [reflexivity|]. replace (zlen (p :: d) =? 0) with false; [reflexivity|]. unfold zlen. cbn [List.length]. lia.
    + destruct (dget k f0) as [v|]; [|reflexivity]. cbn [option_map]. f_equal. unfold numbered, part_plain. destruct (existsb _ _); [reflexivity|].
      destruct v; try reflexivity; rewrite K; [destruct s; reflexivity|destruct d; reflexivity].
Qed.

(** ** The theorems. *)
Lemma class_fields_ext c a m m' : c <> KGrain -> not_bytes c a -> with_key $"grain" (class_fields c a) m = Ok m' <-> with_key $"grain" (class_step c (part_start c) (step_fun c)) m = Ok m'.
Proof.
  intros N B. rewrite !with_key_ok. split; intros (d & d' & A & E & F); exists d, d'; (split; [exact A|split; [|exact F]]); [rewrite <- (class_fields_step c a d N B)|rewrite (class_fields_step c a d N B)]; exact E.
Qed.
Lemma class_dec (c : gclass) : {c = KGrain} + {c <> KGrain}.
Proof. destruct c; [left; reflexivity|right; discriminate..]. Qed.
Theorem init_built c now m a o : not_bytes c a -> init c now m a = Ok o -> built c now m (o_meta o) /\ o = mk c (o_meta o) a.
Proof.
  intros NB H. rewrite init_steps in H. apply rbind_ok in H as (m0 & H0 & H). apply rbind_ok in H as (m1 & H1 & H). apply rbind_ok in H as (m2 & H2 & H). apply Ok_eq in H. subst o.
  unfold mk at 1. cbn [o_meta]. split; [|reflexivity]. destruct (class_dec c) as [->|N].
  - unfold before in H0. apply Ok_eq in H0. subst m0. apply Ok_eq in H2. subst m2. destruct (meta_get _ _ _ H1) as (T & g & G & F).
    constructor; [exact T|eauto| |intros X; destruct X; reflexivity|intros X; destruct X; reflexivity].
    intros k _. rewrite (fields_dict _ _ G). apply (fields_of_get _ _ _ F).
  - assert (H2' : with_key $"grain" (class_step c (part_start c) (step_fun c)) m1 = Ok m2).
    { apply (class_fields_ext c a); auto. destruct c; try exact H2. destruct N; reflexivity. }
    destruct (step_built _ _ _ _ _ _ _ N H1 H2') as (f' & P & T & (g & G & _) & FA & TY & PA).
    assert (Z : c = KVideo \/ c <> KVideo) by (destruct c; auto; right; discriminate). destruct Z as [->|V].
    + destruct (before_video _ _ H0) as (B1 & _ & _ & B2 & B3). constructor.
      * intros k K. rewrite (T k K). unfold top_after. rewrite (B1 k K). reflexivity.
      * eauto.
      * intros k [X|[K1 K2]]; [discriminate X|]. rewrite (FA k K1 K2). apply (field_after_ext now (fields m0) (fields m) $"cog_frame"); auto. apply (part_not_standard KVideo). discriminate.
      * intros _. exact TY.
      * intros _. exists f'. split; [exact PA|]. apply (video_part (fields m0)); auto.
    + assert (m0 = m) by (destruct c; try (apply Ok_eq in H0; auto; fail); destruct V; reflexivity). subst m0. constructor.
      * exact T.
      * eauto.
      * intros k [X|[K1 K2]]; [contradiction|]. apply FA; auto.
      * intros _. exact TY.
      * intros _. exists f'. split; [exact PA|]. apply (part_after_get c (part_start c) (step_fun c)); auto. intros f. apply step_fun_part, N.
Qed.

Lemma fields_dict_some m : (exists g, dget $"grain" m = Some (PDict g)) -> dget $"grain" m = Some (PDict (fields m)).
Proof. intros [g H]. rewrite (fields_dict _ _ H). exact H. Qed.
(** Again from its own metadata: nothing changes. *)
Theorem init_again c now now' m a a' o : not_bytes c a -> not_bytes c a' -> init c now m a = Ok o -> init c now' (o_meta o) a' = Ok (mk c (o_meta o) a').
Proof.
  intros NB NB' H. rewrite init_steps in H. apply rbind_ok in H as (m0 & H0 & H). apply rbind_ok in H as (m1 & H1 & H). apply rbind_ok in H as (m2 & H2 & H). apply Ok_eq in H. subst o.
  unfold mk at 1 2. cbn [o_meta]. rewrite init_steps. destruct (class_dec c) as [->|N].
  - apply Ok_eq in H2. subst m2. cbn [before rbind]. destruct (meta_get _ _ _ H1) as (T & g & G & F).
    rewrite (meta_id now' m1 g G); [reflexivity| |apply (fields_stable _ _ _ F)]. rewrite T by differ. unfold top_after. destruct (dget $"@_ns" m0); [discriminate|vm_compute; discriminate].
  - assert (H2' : with_key $"grain" (class_step c (part_start c) (step_fun c)) m1 = Ok m2).
    { apply (class_fields_ext c a); auto. destruct c; try exact H2. destruct N; reflexivity. }
    destruct (step_built _ _ _ _ _ _ _ N H1 H2') as (f' & P & T & (g & G & S) & FA & TY & PA). rewrite (fields_dict _ _ G) in *.
    assert (NS : dget $"@_ns" m2 <> None) by (rewrite T by differ; unfold top_after; destruct (dget $"@_ns" m0); [discriminate|vm_compute; discriminate]).
    assert (B : before c m2 = Ok m2 /\ step_fun c f' = Ok f').
    { assert (Z : c = KVideo \/ c <> KVideo) by (destruct c; auto; right; discriminate). destruct Z as [->|V].
      - destruct P as (f & P & Q). rewrite step_fun_part in Q by discriminate. pose proof (int_convs_get _ _ _ (numbers_keys KVideo) Q) as GET. cbn [part_name] in *.
        assert (CO : exists v, dget $"components" f = Some v /\ (v = PList [] \/ exists n, py_len v = Ok n /\ n <> 0)).
        { destruct (before_video _ _ H0) as (_ & _ & _ & _ & [[B0 B1]|(f0 & f1 & B0 & W & B1)]).
          - rewrite B1 in P. destruct P as [P|[_ ->]]; [discriminate P|]. exists (PList []). split; [reflexivity|left; reflexivity].
          - rewrite B1 in P. destruct P as [P|[P _]]; [|discriminate P]. injection P as <-. rewrite (with_comps_get _ _ W). rewrite zlist_eqb_refl. eexists. split; [reflexivity|].
            destruct (dget $"components" f0) as [v|] eqn:E; [|left; reflexivity]. destruct (empty_value v) eqn:EV; [left; reflexivity|right].
            destruct (proj1 (with_comps_total f0) (ex_intro _ f1 W) v E) as [n L]. exists n. split; [exact L|]. unfold empty_value in EV. rewrite L in EV. lia. }
        destruct CO as (v & CV & CO). assert (CV' : dget $"components" f' = Some v) by (rewrite GET, CV; reflexivity). split.
        + unfold before. apply (with_key_id _ _ _ g G). apply comps_step. right. exists f', f'. split; [exact PA|]. split; [|symmetry; apply dset_same, PA].
          unfold with_comps. rewrite CV'. destruct CO as [->|(n & -> & NZ)]; cbn [py_len rbind]; [rewrite (dset_same _ _ _ CV'); reflexivity|]. destruct (n =? 0) eqn:NE; [lia|reflexivity].
        + rewrite step_fun_part by discriminate. unfold part_fun. apply int_convs_id. intros k Hk. rewrite GET.
          destruct (proj1 (int_convs_total _ _ (numbers_keys KVideo)) (ex_intro _ f' Q) k Hk) as (w & z & W & Z). rewrite W. cbn [option_map]. unfold numbered.
          replace (existsb (zlist_eqb k) (numbers KVideo)) with true; [|symmetry; apply existsb_exists; exists k; split; [exact Hk|apply zlist_eqb_refl]]. rewrite Z. eauto.
      - split; [destruct c; try reflexivity; destruct V; reflexivity|]. destruct P as (f & _ & Q). rewrite step_fun_part in * by exact N. apply (part_id c f); auto. }
    destruct B as [B1 B2]. rewrite B1. cbn [rbind]. rewrite (meta_id now' m2 g G NS S). cbn [rbind].
    assert (K : with_key $"grain" (class_fields c a') m2 = Ok m2).
    { apply (class_fields_ext c a'); auto. apply (step_id c _ _ m2 g f' G TY PA B2). }
    destruct c; try (rewrite K; reflexivity). destruct N; reflexivity.
Qed.

(** When it succeeds. *)
Lemma meta_total now m : (exists m', grain_meta now m = Ok m') <->
  match dget $"grain" m with Some (PDict _) | None => True | Some _ => False end /\ forall k v, In k time_names -> dget k (standard now (fields m)) = Some v -> time_like v.
Proof.
  rewrite <- fields_total. split.
  - intros [m' H]. apply meta_parts in H as (g' & F & D & _). split; [destruct D as [->|[g ->]]; exact I|eauto].
  - intros [D [g' F]]. eexists. apply meta_parts. exists g'. split; [exact F|]. split; [|reflexivity]. destruct (dget _ m) as [[]|]; try destruct D; eauto.
Qed.
Lemma part_result_total c g : c <> KGrain -> (exists f', part_result c (part_start c) (step_fun c) g f') <->
  match dget (part_name c) g with
  | Some (PDict f) => forall k, In k (numbers c) -> match dget k f with Some v => exists z, to_int v = Ok z | None => c <> KVideo end
  | Some _ => False | None => True
  end.
Proof.
  intros N. unfold part_result. assert (S : forall f, step_fun c f = part_fun c f) by (intros f; apply step_fun_part, N).
  assert (PT : forall f, (exists f', part_fun c f = Ok f') <-> forall k, In k (numbers c) -> match dget k f with Some v => exists z, to_int v = Ok z | None => c <> KVideo end).
  { intros f. assert (Z : c = KVideo \/ c <> KVideo) by (destruct c; auto; right; discriminate). destruct Z as [->|V].
    - unfold part_fun. rewrite (int_convs_total _ _ (numbers_keys KVideo)). split; intros H k Hk; specialize (H k Hk).
      + destruct H as (v & z & -> & Z). eauto.
      + destruct (dget k f) as [v|]; [destruct H as [z Z]; eauto|destruct H; reflexivity].
    - rewrite (part_total c f V). split; intros H k.
      + intros Hk. destruct (dget k f) as [v|] eqn:E; [apply (H k v Hk E)|exact V].
      + intros v Hk E. specialize (H k Hk). rewrite E in H. exact H. }
  destruct (dget (part_name c) g) as [v|].
  - split.
    + intros (f' & f & [E|[E _]] & Q); [|discriminate E]. injection E as ->. apply PT. rewrite S in Q. eauto.
    + intros H. destruct v; try destruct H. apply PT in H as [f' H]. exists f', d. rewrite S. auto.
  - split; [auto|]. intros _. assert (Q : exists f', part_fun c (part_start c) = Ok f') by (destruct c; eexists; vm_compute; reflexivity).
    destruct Q as [f' Q]. exists f', (part_start c). rewrite S. auto.
Qed.
Theorem init_total c now m a : not_bytes c a -> (exists o, init c now m a = Ok o) <-> can_build c now m.
Proof.
  intros NB. rewrite init_steps. assert (STEP : forall m0 m1, grain_meta now m0 = Ok m1 ->
    (exists m2, match c with KGrain => Ok m1 | _ => with_key $"grain" (class_fields c a) m1 end = Ok m2) <->
    (c <> KGrain -> exists f', part_result c (part_start c) (step_fun c) (fields m0) f')).
  { intros m0 m1 H1. destruct (class_dec c) as [->|N]; [split; [intros _ X; destruct X; reflexivity|eauto]|].
    rewrite <- (step_total c _ _ _ _ _ N H1). assert (E : forall m2, match c with KGrain => Ok m1 | _ => with_key $"grain" (class_fields c a) m1 end = Ok m2 <->
      with_key $"grain" (class_step c (part_start c) (step_fun c)) m1 = Ok m2).
    { intros m2. rewrite <- (class_fields_ext c a m1 m2 N NB). destruct c; try reflexivity. destruct N; reflexivity. }
    split; [intros [m2 X] _|intros X; destruct (X N) as [m2 Y]]; exists m2; apply E; auto. }
  assert (Z : c = KVideo \/ c <> KVideo) by (destruct c; auto; right; discriminate). destruct Z as [->|V].
  - split.
    + intros [o H]. apply rbind_ok in H as (m0 & H0 & H). apply rbind_ok in H as (m1 & H1 & H). apply rbind_ok in H as (m2 & H2 & _).
      destruct (before_video _ _ H0) as (_ & [g G] & _ & B2 & B3). pose proof (proj1 (meta_total now m0) (ex_intro _ m1 H1)) as [_ T].
      destruct (proj1 (STEP m0 m1 H1) (ex_intro _ m2 H2)) as [f' PR]; [discriminate|]. pose proof (proj1 (part_result_total KVideo (fields m0) ltac:(discriminate)) (ex_intro _ f' PR)) as PT.
      cbn [part_name] in PT. constructor.
      * rewrite G. exact I.
      * intros k v Hk E. apply (T k v Hk). rewrite <- E. unfold standard, given. rewrite !B2; [reflexivity|..]; differ.
      * intros _. cbn [part_name]. destruct B3 as [[-> _]|(f & f1 & -> & _)]; exact I.
      * intros k f Hk E. cbn [part_name] in E. destruct B3 as [[B _]|(f0 & f1 & B & W & B1)]; rewrite B in E; [discriminate E|]. injection E as <-. rewrite B1 in PT. specialize (PT k Hk).
        rewrite (with_comps_get _ _ W) in PT. replace (zlist_eqb k $"components") with false in PT; [exact PT|]. destruct Hk as [<-|[<-|[]]]; reflexivity.
      * intros _ f v E F. destruct B3 as [[B _]|(f0 & f1 & B & W & B1)]; rewrite B in E; [discriminate E|]. injection E as <-. apply (proj1 (with_comps_total f0) (ex_intro _ f1 W)). exact F.
    + intros [C1 C2 C3 C4 C5]. cbn [part_name] in *.
      assert (G : exists g, dget $"grain" m = Some (PDict g)).
      { destruct (dget $"grain" m) as [[]|]; try destruct C1; eauto. }
      destruct G as [g G]. rewrite (fields_dict _ _ G) in *.
      assert (B : exists m0, before KVideo m = Ok m0).
      { unfold before. apply with_key_total. exists g. destruct (dget $"cog_frame" g) as [v|] eqn:E.
        - destruct v; try (destruct (C3 ltac:(discriminate)); fail). destruct (proj2 (with_comps_total d)) as [f' W]; [intros v F; eapply C5; eauto|].
          eexists. split; [exact G|]. apply comps_step. right. eauto.
        - exists g. split; [exact G|]. apply comps_step. left. auto. }
      destruct B as [m0 B]. rewrite B. cbn [rbind]. destruct (before_video _ _ B) as (_ & _ & [g0 G0] & B2 & B3). rewrite (fields_dict _ _ G) in *.
      assert (M : exists m1, grain_meta now m0 = Ok m1).
      { apply meta_total. rewrite G0. split; [exact I|]. intros k v Hk E. apply (C2 k v Hk). rewrite <- E. unfold standard, given. rewrite !B2; [reflexivity|..]; differ. }
      destruct M as [m1 H1]. rewrite H1. cbn [rbind]. destruct (proj2 (STEP m0 m1 H1)) as [m2 H2].
      { intros N. apply (part_result_total KVideo _ N). cbn [part_name]. destruct B3 as [[_ ->]|(f & f1 & E & W & ->)]; [exact I|]. intros k Hk.
        rewrite (with_comps_get _ _ W). replace (zlist_eqb k $"components") with false; [apply (C4 k f Hk E)|]. destruct Hk as [<-|[<-|[]]]; reflexivity. }
      rewrite H2. cbn [rbind]. eauto.
  - assert (B : before c m = Ok m) by (destruct c; try reflexivity; destruct V; reflexivity). rewrite B. cbn [rbind]. split.
    + intros [o H]. apply rbind_ok in H as (m1 & H1 & H). apply rbind_ok in H as (m2 & H2 & _).
      pose proof (proj1 (meta_total now m) (ex_intro _ m1 H1)) as [D T]. pose proof (proj1 (STEP m m1 H1) (ex_intro _ m2 H2)) as PR. constructor.
      * destruct (dget _ m) as [[]|]; auto.
      * exact T.
      * intros N. specialize (PR N). apply (part_result_total c _ N) in PR. destruct (dget (part_name c) _) as [[]|]; auto.
      * intros k f Hk E. destruct (class_dec c) as [->|N]; [destruct Hk|]. specialize (PR N). apply (part_result_total c _ N) in PR. rewrite E in PR. apply PR, Hk.
      * intros X. contradiction.
    + intros [C1 C2 C3 C4 C5]. assert (M : exists m1, grain_meta now m = Ok m1).
      { apply meta_total. split; [|exact C2]. destruct (dget _ m) as [[]|]; auto. }
      destruct M as [m1 H1]. rewrite H1. cbn [rbind]. destruct (proj2 (STEP m m1 H1)) as [m2 H2].
      { intros N. apply (part_result_total c _ N). specialize (C3 N). destruct (dget (part_name c) (fields m)) as [v|] eqn:E; [|exact I]. destruct v; try destruct C3.
        intros k Hk. apply (C4 k d Hk eq_refl). }
      rewrite H2. cbn [rbind]. eauto.
Qed.
