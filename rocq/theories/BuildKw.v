From Coq Require Import String Lia ZifyBool.
From Verif Require Import Base BaseProofs PyValue PyValueProofs Json JsonProofs CogEnums VideoLayout GrainObj BuildSpec BuildProofs BuildMain.
Local Open Scope list_scope.

(** ** GrainFactory. *)
Lemma mk_again c m a : mk c m (own_payload (mk c m a)) = mk c m a.
Proof. destruct c, a; reflexivity. Qed.
Lemma own_not_bytes c m a : not_bytes c (own_payload (mk c m a)).
Proof. destruct c, a; exact I. Qed.
Lemma class_again c now m m' : class_for m = Ok c -> built c now m m' -> class_for m' = Ok c.
Proof.
  intros H [_ [g G] F T _]. assert (E : class_for m' = rbind (as_dict (PDict (fields m'))) (fun g =>
      match dget $"grain_type" g with
      | None => Ok KGrain
      | Some t => Ok (if type_is t $"video" then KVideo else if type_is t $"audio" then KAudio else if type_is t $"coded_video" then KCodedVideo
              else if type_is t $"coded_audio" then KCodedAudio else if type_is t $"event" || type_is t $"data" then KEvent else KGrain)
      end)).
  { unfold class_for. rewrite G, (fields_dict _ _ G). reflexivity. }
  rewrite E. clear E. cbn [as_dict rbind]. destruct (class_dec c) as [->|N].
  - rewrite (F $"grain_type" (or_introl eq_refl)). unfold field_after. change (dget $"grain_type" (standard now (fields m))) with (Some (given (fields m) $"grain_type" (PStr $"empty"))). cbn [option_map].
    assert (P : forall v, plain $"grain_type" v = v) by (intros v; destruct v; reflexivity). rewrite P. unfold class_for in H.
    assert (X : dget $"grain_type" (fields m) = None \/ exists t, dget $"grain_type" (fields m) = Some t /\
      (if type_is t $"video" then KVideo else if type_is t $"audio" then KAudio else if type_is t $"coded_video" then KCodedVideo
              else if type_is t $"coded_audio" then KCodedAudio else if type_is t $"event" || type_is t $"data" then KEvent else KGrain) = KGrain).
    { unfold fields. destruct (dget $"grain" m) as [v|]; [|left; reflexivity]. apply rbind_ok in H as (d & D & H). destruct v; try discriminate D. apply Ok_eq in D. subst d0.
      destruct (dget $"grain_type" d) as [t|]; [right|left; reflexivity]. exists t. split; [reflexivity|]. apply Ok_eq in H. exact H. }
    unfold given. destruct X as [->|(t & -> & X)]; [vm_compute; reflexivity|]. rewrite X. reflexivity.
  - rewrite (T N). destruct c; vm_compute; try reflexivity.
Qed.
Theorem factory_again now now' m a o : not_bytes (o_class o) a -> GrainFactory now m a = Ok o -> GrainFactory now' (o_meta o) (own_payload o) = Ok o.
Proof.
  intros NB H. unfold GrainFactory in *. apply rbind_ok in H as (c & C & H).
  assert (CC : o_class o = c).
  { rewrite init_steps in H. apply rbind_ok in H as (? & _ & H). apply rbind_ok in H as (? & _ & H). apply rbind_ok in H as (? & _ & H). apply Ok_eq in H. subst o. reflexivity. }
  rewrite CC in NB. destruct (init_built _ _ _ _ _ NB H) as [B E]. rewrite (class_again _ _ _ _ C B). cbn [rbind]. rewrite E. unfold mk at 1. cbn [o_meta].
  assert (NB' : not_bytes c (own_payload (mk c (o_meta o) a))) by apply own_not_bytes.
  rewrite (init_again _ _ _ _ _ _ _ NB NB' H). rewrite mk_again. reflexivity.
Qed.
Theorem factory_built now m a o : not_bytes (o_class o) a -> GrainFactory now m a = Ok o -> class_for m = Ok (o_class o) /\ built (o_class o) now m (o_meta o).
Proof.
  intros NB H. unfold GrainFactory in *. apply rbind_ok in H as (c & C & H).
  assert (CC : o_class o = c).
  { rewrite init_steps in H. apply rbind_ok in H as (? & _ & H). apply rbind_ok in H as (? & _ & H). apply rbind_ok in H as (? & _ & H). apply Ok_eq in H. subst o. reflexivity. }
  rewrite CC in *. split; [exact C|]. apply (init_built _ _ _ _ _ NB H).
Qed.

(** ** Keyword arguments. *)
Lemma frac_lowest n d : 0 < d -> Z.gcd n d = 1 -> mk_frac (PInt n) (PInt d) = Ok (PFrac n d).
Proof.
  intros D G. unfold mk_frac. cbn [as_q]. unfold frac. rewrite Z.mul_1_r, Z.mul_1_l. destruct (d =? 0) eqn:E; [lia|].
  rewrite G, Z.sgn_pos by lia. rewrite !Z.mul_1_l, !Z.div_1_r. reflexivity.
Qed.
Lemma member_ok l z : member l z = true -> to_member l (PInt z) = Ok (PInt z).
Proof. intros H. unfold to_member. cbn [as_q]. unfold to_enum. rewrite H. reflexivity. Qed.
Definition kw_obj (c : gclass) (now : Z) (k : kw) (part : pv) (d : option bytes) (w : option Z) : gobj :=
  mkO c (kw_grain (type_name c) now k [(part_name c, part)]) d w.
Lemma kw_common c now k part d w : c <> KGrain -> common_are k now (type_name c) (kw_obj c now k part d w).
Proof.
  intros N. destruct k as [src flow origin sync creation [rn rd] [dn dd]]. destruct c; try (destruct N; reflexivity);
  (constructor; cbn [k_src k_flow k_origin k_sync k_creation k_rate k_duration];
   [vm_compute; reflexivity
   |intros u ->; split; vm_compute; reflexivity
   |intros u ->; vm_compute; reflexivity
   |vm_compute; reflexivity|vm_compute; reflexivity|vm_compute; reflexivity
   |intros n e E D G; injection E as -> ->; rewrite <- (frac_lowest n e D G); vm_compute; reflexivity
   |intros n e E D G; injection E as -> ->; rewrite <- (frac_lowest n e D G); vm_compute; reflexivity]).
Qed.
Lemma zeros_payload c now k part a a' size : c <> KEvent -> or_zeros size a = Ok a' ->
  payload_is (grain_obj c (kw_grain (type_name c) now k [(part_name c, part)]) a') a size.
Proof.
  intros N H. destruct a; cbn [or_zeros] in H; [|apply Ok_eq in H; subst a'; destruct c; try (destruct N; reflexivity); (split; reflexivity)..].
  destruct (size <? 0) eqn:E; [discriminate H|]. apply Ok_eq in H. subst a'. cbn [payload_is]. split; [lia|]. split; [|destruct c; reflexivity].
  exists (zeros (Z.to_nat size)). split; [destruct c; try reflexivity; destruct N; reflexivity|]. split.
  - unfold zlen, zeros. rewrite repeat_length. lia.
  - apply Forall_forall. intros x Hx. unfold zeros in Hx. apply repeat_spec in Hx. exact Hx.
Qed.
Lemma kw_shape c now k part a : exists d w, grain_obj c (kw_grain (type_name c) now k [(part_name c, part)]) a = kw_obj c now k part d w.
Proof. destruct a; eexists; eexists; reflexivity. Qed.
Lemma or_zeros_total size a : (exists a', or_zeros size a = Ok a') <-> (a = ANone -> 0 <= size).
Proof.
  destruct a; cbn [or_zeros]; [|split; [discriminate|eauto]..]. destruct (size <? 0) eqn:E; split; [intros [? H]; discriminate H|intros H; specialize (H eq_refl); lia|intros; lia|eauto].
Qed.

(** VideoGrain. *)
Definition video_part_kw (fmt w h layout : Z) (comps : pv) : pv :=
  PDict [($"format", PInt fmt); ($"width", PInt w); ($"height", PInt h); ($"layout", PInt layout); ($"extension", PInt 0); ($"components", comps)].
Lemma video_init_kw comps size now k fmt w h layout a :
  video_init comps size now (kw_grain $"video" now k [($"cog_frame", video_part_kw fmt w h layout (PList []))]) a =
  rbind (or_zeros size a) (fun a => Ok (grain_obj KVideo (kw_grain $"video" now k [($"cog_frame", video_part_kw fmt w h layout comps)]) a)).
Proof.
  destruct k as [src flow origin sync creation [rn rd] [dn dd]]. unfold video_init. destruct (or_zeros size a) as [a'|]; [|reflexivity]. cbn [rbind].
  destruct src, flow; vm_compute; reflexivity.
Qed.
Theorem video_kw now k fmt w h layout a o : kw_video now k fmt w h layout a = Ok o ->
  common_are k now $"video" o /\ payload_is o a (size_for_format fmt w h) /\ attr_is o $"width" (PInt w) /\ attr_is o $"height" (PInt h) /\
  (member frame_formats fmt = true -> attr_is o $"cog_frame_format" (PInt fmt)) /\ (member frame_layouts layout = true -> attr_is o $"cog_frame_layout" (PInt layout)) /\
  in_section $"cog_frame" $"components" o = Ok (PList (map comp_dict (components_for_format fmt w h))).
Proof.
  unfold kw_video. intros H. change (PDict [($"format", PInt fmt); ($"width", PInt w); ($"height", PInt h); ($"layout", PInt layout); ($"extension", PInt 0); ($"components", PList [])])
    with (video_part_kw fmt w h layout (PList [])) in H. rewrite video_init_kw in H. apply rbind_ok in H as (a' & Z & H). apply Ok_eq in H.
  set (comps := PList (map comp_dict (components_for_format fmt w h))) in *. set (size := size_for_format fmt w h) in *. clearbody comps size.
  pose proof (zeros_payload KVideo now k (video_part_kw fmt w h layout comps) a a' size ltac:(discriminate) Z) as P.
  destruct (kw_shape KVideo now k (video_part_kw fmt w h layout comps) a') as (d & x & S). cbn [type_name part_name] in *. rewrite S in *. subst o.
  split; [apply (kw_common KVideo); discriminate|]. split; [exact P|]. split; [reflexivity|]. split; [reflexivity|]. split; [|split; [|reflexivity]].
  - intros M. unfold attr_is. rewrite <- (member_ok _ _ M). reflexivity.
  - intros M. unfold attr_is. rewrite <- (member_ok _ _ M). reflexivity.
Qed.
Theorem video_kw_total now k fmt w h layout a : (exists o, kw_video now k fmt w h layout a = Ok o) <-> (a = ANone -> 0 <= size_for_format fmt w h).
Proof.
  rewrite <- or_zeros_total. unfold kw_video. change (PDict [($"format", PInt fmt); ($"width", PInt w); ($"height", PInt h); ($"layout", PInt layout); ($"extension", PInt 0); ($"components", PList [])])
    with (video_part_kw fmt w h layout (PList [])). rewrite video_init_kw. set (r := or_zeros _ a). destruct r; cbn [rbind]; split; intros [x X]; try discriminate X; eauto.
Qed.

(** AudioGrain. *)
Definition audio_part_kw (fmt samples channels rate : Z) : pv :=
  PDict [($"format", PInt fmt); ($"samples", PInt samples); ($"channels", PInt channels); ($"sample_rate", PInt rate)].
Lemma audio_init_kw size now k fmt samples channels rate a :
  audio_init size now (kw_grain $"audio" now k [($"cog_audio", audio_part_kw fmt samples channels rate)]) a =
  rbind (or_zeros size a) (fun a => Ok (grain_obj KAudio (kw_grain $"audio" now k [($"cog_audio", audio_part_kw fmt samples channels rate)]) a)).
Proof.
  destruct k as [src flow origin sync creation [rn rd] [dn dd]]. unfold audio_init. destruct (or_zeros size a) as [a'|]; [|reflexivity]. cbn [rbind].
  destruct src, flow; vm_compute; reflexivity.
Qed.
Theorem audio_kw now k fmt samples channels rate a o : kw_audio now k fmt samples channels rate a = Ok o ->
  common_are k now $"audio" o /\ payload_is o a (size_for_audio_format fmt channels samples) /\ attr_is o $"samples" (PInt samples) /\ attr_is o $"channels" (PInt channels) /\
  attr_is o $"sample_rate" (PInt rate) /\ (member audio_formats fmt = true -> attr_is o $"cog_audio_format" (PInt fmt)).
Proof.
  unfold kw_audio. intros H. change (PDict [($"format", PInt fmt); ($"samples", PInt samples); ($"channels", PInt channels); ($"sample_rate", PInt rate)])
    with (audio_part_kw fmt samples channels rate) in H. rewrite audio_init_kw in H. apply rbind_ok in H as (a' & Z & H). apply Ok_eq in H.
  set (size := size_for_audio_format fmt channels samples) in *. clearbody size.
  pose proof (zeros_payload KAudio now k (audio_part_kw fmt samples channels rate) a a' size ltac:(discriminate) Z) as P.
  destruct (kw_shape KAudio now k (audio_part_kw fmt samples channels rate) a') as (d & x & S). cbn [type_name part_name] in *. rewrite S in *. subst o.
  split; [apply (kw_common KAudio); discriminate|]. split; [exact P|]. split; [reflexivity|]. split; [reflexivity|]. split; [reflexivity|].
  intros M. unfold attr_is. rewrite <- (member_ok _ _ M). reflexivity.
Qed.
Theorem audio_kw_total now k fmt samples channels rate a : (exists o, kw_audio now k fmt samples channels rate a = Ok o) <-> (a = ANone -> 0 <= size_for_audio_format fmt channels samples).
Proof.
  rewrite <- or_zeros_total. unfold kw_audio. change (PDict [($"format", PInt fmt); ($"samples", PInt samples); ($"channels", PInt channels); ($"sample_rate", PInt rate)])
    with (audio_part_kw fmt samples channels rate). rewrite audio_init_kw. set (r := or_zeros _ a). destruct r; cbn [rbind]; split; intros [x X]; try discriminate X; eauto.
Qed.

(** CodedAudioGrain. *)
Definition coded_audio_part_kw (fmt samples channels priming remainder rate : Z) : pv :=
  PDict [($"format", PInt fmt); ($"samples", PInt samples); ($"channels", PInt channels); ($"priming", PInt priming); ($"remainder", PInt remainder); ($"sample_rate", PInt rate)].
Lemma coded_audio_init_kw size now k fmt samples channels priming remainder rate a :
  coded_audio_init size now (kw_grain $"coded_audio" now k [($"cog_coded_audio", coded_audio_part_kw fmt samples channels priming remainder rate)]) a =
  rbind (or_zeros size a) (fun a => Ok (grain_obj KCodedAudio (kw_grain $"coded_audio" now k [($"cog_coded_audio", coded_audio_part_kw fmt samples channels priming remainder rate)]) a)).
Proof.
  destruct k as [src flow origin sync creation [rn rd] [dn dd]]. unfold coded_audio_init. destruct (or_zeros size a) as [a'|]; [|reflexivity]. cbn [rbind].
  destruct src, flow; vm_compute; reflexivity.
Qed.
Theorem coded_audio_kw now k fmt samples channels priming remainder rate len a o : kw_coded_audio now k fmt samples channels priming remainder rate len a = Ok o ->
  common_are k now $"coded_audio" o /\ payload_is o a (or_else len 0) /\ attr_is o $"samples" (PInt samples) /\ attr_is o $"channels" (PInt channels) /\
  attr_is o $"sample_rate" (PInt rate) /\ attr_is o $"priming" (PInt priming) /\ attr_is o $"remainder" (PInt remainder) /\
  (member audio_formats fmt = true -> attr_is o $"cog_audio_format" (PInt fmt)).
Proof.
  unfold kw_coded_audio. intros H. change (PDict [($"format", PInt fmt); ($"samples", PInt samples); ($"channels", PInt channels); ($"priming", PInt priming); ($"remainder", PInt remainder); ($"sample_rate", PInt rate)])
    with (coded_audio_part_kw fmt samples channels priming remainder rate) in H. rewrite coded_audio_init_kw in H. apply rbind_ok in H as (a' & Z & H). apply Ok_eq in H.
  assert (Z' : or_zeros (or_else len 0) a = Ok a') by (destruct a; [destruct len; exact Z|exact Z..]).
  pose proof (zeros_payload KCodedAudio now k (coded_audio_part_kw fmt samples channels priming remainder rate) a a' _ ltac:(discriminate) Z') as P.
  destruct (kw_shape KCodedAudio now k (coded_audio_part_kw fmt samples channels priming remainder rate) a') as (d & x & S). cbn [type_name part_name] in *. rewrite S in *. subst o.
  split; [apply (kw_common KCodedAudio); discriminate|]. split; [exact P|]. split; [reflexivity|]. split; [reflexivity|]. split; [reflexivity|]. split; [reflexivity|]. split; [reflexivity|].
  intros M. unfold attr_is. rewrite <- (member_ok _ _ M). reflexivity.
Qed.

(** CodedVideoGrain. *)
Definition coded_video_part_kw (fmt ow oh cw ch layout : Z) (key_frame : option bool) (temporal : option Z) (more : dict) : pv :=
  PDict ([($"format", PInt fmt); ($"origin_width", PInt ow); ($"origin_height", PInt oh); ($"coded_width", PInt cw); ($"coded_height", PInt ch);
          ($"layout", PInt layout)] ++ opt_field $"is_key_frame" (option_map PBool key_frame) ++ opt_field $"temporal_offset" (option_map PInt temporal) ++ more).
Lemma coded_video_init_kw size now k fmt ow oh cw ch layout key temporal offsets a :
  coded_video_init size offsets now (kw_grain $"coded_video" now k [($"cog_coded_frame", coded_video_part_kw fmt ow oh cw ch layout key temporal [])]) a =
  rbind (or_zeros size a) (fun a => Ok (grain_obj KCodedVideo (kw_grain $"coded_video" now k
    [($"cog_coded_frame", coded_video_part_kw fmt ow oh cw ch layout key temporal (opt_field $"unit_offsets" (option_map PList offsets) ++ [($"length", PInt 0)]))]) a)).
Proof.
  destruct k as [src flow origin sync creation [rn rd] [dn dd]]. unfold coded_video_init. destruct (or_zeros size a) as [a'|]; [|reflexivity]. cbn [rbind].
  destruct src, flow, key, temporal, offsets; vm_compute; reflexivity.
Qed.
Theorem coded_video_kw now k fmt ow oh cw ch key temporal len layout offs a o : kw_coded_video now k fmt ow oh cw ch key temporal len layout offs a = Ok o ->
  common_are k now $"coded_video" o /\ payload_is o a (or_else len 0) /\ attr_is o $"origin_width" (PInt ow) /\ attr_is o $"origin_height" (PInt oh) /\
  attr_is o $"coded_width" (PInt (or_else cw ow)) /\ attr_is o $"coded_height" (PInt (or_else ch oh)) /\
  attr_is o $"is_key_frame" (or_else (option_map PBool key) PNone) /\ attr_is o $"temporal_offset" (or_else (option_map PInt temporal) PNone) /\
  offsets o = Ok (map PInt (or_else offs [])) /\
  (member frame_formats fmt = true -> attr_is o $"cog_frame_format" (PInt fmt)) /\ (member frame_layouts layout = true -> attr_is o $"cog_frame_layout" (PInt layout)).
Proof.
  unfold kw_coded_video. intros H. set (cw' := match cw with Some z => z | None => ow end) in *. set (ch' := match ch with Some z => z | None => oh end) in *.
  replace ([($"format", PInt fmt); ($"origin_width", PInt ow); ($"origin_height", PInt oh); ($"coded_width", PInt cw'); ($"coded_height", PInt ch'); ($"layout", PInt layout)] ++
           opt_field $"is_key_frame" (option_map PBool key) ++ opt_field $"temporal_offset" (option_map PInt temporal))
    with ([($"format", PInt fmt); ($"origin_width", PInt ow); ($"origin_height", PInt oh); ($"coded_width", PInt cw'); ($"coded_height", PInt ch'); ($"layout", PInt layout)] ++
           opt_field $"is_key_frame" (option_map PBool key) ++ opt_field $"temporal_offset" (option_map PInt temporal) ++ []) in H by (rewrite app_nil_r; reflexivity).
  match type of H with context [($"cog_coded_frame", ?p)] => change p with (coded_video_part_kw fmt ow oh cw' ch' layout key temporal []) in H end.
  rewrite coded_video_init_kw in H. apply rbind_ok in H as (a' & Z & H). apply Ok_eq in H.
  assert (Z' : or_zeros (or_else len 0) a = Ok a') by (destruct a; [destruct len; exact Z|exact Z..]).
  match type of H with context [($"cog_coded_frame", ?p)] => set (part := p) in * end.
  pose proof (zeros_payload KCodedVideo now k part a a' _ ltac:(discriminate) Z') as P.
  destruct (kw_shape KCodedVideo now k part a') as (d & x & S). cbn [type_name part_name] in *. rewrite S in *. subst o.
  split; [apply (kw_common KCodedVideo); discriminate|]. split; [exact P|]. unfold part.
  split; [destruct key, temporal; reflexivity|]. split; [destruct key, temporal; reflexivity|]. split; [destruct key, temporal; reflexivity|]. split; [destruct key, temporal; reflexivity|].
  split; [destruct key, temporal; try reflexivity; destruct offs; reflexivity|]. split; [destruct key, temporal; try reflexivity; destruct offs; reflexivity|].
  split; [destruct key, temporal, offs; reflexivity|].
  split; intros M; unfold attr_is; rewrite <- (member_ok _ _ M); destruct key, temporal; reflexivity.
Qed.

(** EventGrain without a payload, and Grain through the factory. *)
Lemma event_kw now k kind topic a o : not_bytes KEvent a -> kw_event now k kind topic a = Ok o ->
  common_are k now $"event" o /\ attr_is o $"event_type" (PStr kind) /\ attr_is o $"topic" (PStr topic) /\ event_entries o = Ok [].
Proof.
  intros NB H. unfold kw_event in H. set (part := PDict [($"type", PStr kind); ($"topic", PStr topic); ($"data", PList [])]) in *.
  assert (E : event_init now (kw_grain $"event" now k [($"event_payload", part)]) a = Ok (kw_obj KEvent now k part None (match a with AWait => Some 0 | _ => None end))).
  { destruct k as [src flow origin sync creation [rn rd] [dn dd]]. destruct a; [|destruct NB|]; destruct src, flow; vm_compute; reflexivity. }
  rewrite E in H. apply Ok_eq in H. subst o. split; [apply (kw_common KEvent); discriminate|]. split; [reflexivity|]. split; reflexivity.
Qed.
Lemma empty_kw now k a o : kw_factory now k a = Ok o -> (exists s f, k_src k = Some s /\ k_flow k = Some f) /\ common_are k now $"empty" o /\ get_data o = Ok None.
Proof.
  unfold kw_factory. intros H. destruct k as [src flow origin sync creation [rn rd] [dn dd]]. cbn [k_src k_flow] in *. destruct src as [s|]; [|discriminate H]. destruct flow as [f|]; [|discriminate H].
  split; [eauto|]. vm_compute in H. apply Ok_eq in H. subst o. split; [|reflexivity].
  constructor; cbn [k_src k_flow k_origin k_sync k_creation k_rate k_duration]; [reflexivity|intros u E; injection E as <-; split; reflexivity|intros u E; injection E as <-; reflexivity
    |reflexivity|reflexivity|reflexivity
    |intros n e E D G; injection E as -> ->; rewrite <- (frac_lowest n e D G); reflexivity
    |intros n e E D G; injection E as -> ->; rewrite <- (frac_lowest n e D G); reflexivity].
Qed.

(** ** In words. *)
Lemma standard_given now g k v : dget k (standard now g) = Some v -> forall w, dget k g = Some w -> v = w.
Proof.
  intros H w E. unfold standard in H. cbn [dget] in H.
  repeat match type of H with (if ?b then _ else _) = _ => destruct b eqn:B; [apply zlist_eqb_eq in B; subst k; unfold given in H; rewrite E in H; congruence|clear B] end.
  discriminate H.
Qed.
Theorem keeps c now m a o k v : not_bytes c a -> init c now m a = Ok o -> (c = KGrain \/ (k <> part_name c /\ k <> $"grain_type")) ->
  dget k (fields m) = Some v -> dget k (fields (o_meta o)) = Some (plain k v).
Proof.
  intros NB H N E. destruct (init_built _ _ _ _ _ NB H) as [[_ _ F _ _] _]. rewrite (F k N). unfold field_after. destruct (dget k (standard now (fields m))) as [w|] eqn:S.
  - rewrite (standard_given _ _ _ _ S _ E). reflexivity.
  - rewrite E. reflexivity.
Qed.
Theorem keeps_part c now m a o k f v : not_bytes c a -> init c now m a = Ok o -> c <> KGrain -> dget (part_name c) (fields m) = Some (PDict f) ->
  dget k f = Some v -> in_section (part_name c) k o = Ok (part_plain c k v).
Proof.
  intros NB H N E D. destruct (init_built _ _ _ _ _ NB H) as [[_ G _ _ P] _]. destruct (P N) as (f' & A & B). unfold in_section, field.
  unfold ditem. rewrite (fields_dict_some _ G). cbn [rbind sub]. unfold ditem. rewrite A. cbn [rbind sub]. unfold ditem. rewrite B.
  unfold part_after. rewrite E, D. reflexivity.
Qed.
Theorem nothing_else c now m a o k : not_bytes c a -> init c now m a = Ok o -> dget k (fields m) = None ->
  ~ In k (map fst (standard 0 [])) -> (c = KGrain \/ k <> part_name c) -> dget k (fields (o_meta o)) = None.
Proof.
  intros NB H E N P. destruct (init_built _ _ _ _ _ NB H) as [[_ _ F _ _] _]. rewrite F.
  - rewrite after_other by exact N. exact E.
  - destruct P as [P|P]; [left; exact P|right]. split; [exact P|]. intros ->. apply N. vm_compute. tauto.
Qed.
Theorem complete c now m a o k : not_bytes c a -> init c now m a = Ok o -> In k (map fst (standard 0 [])) -> dget k (fields (o_meta o)) <> None.
Proof.
  intros NB H I. destruct (init_built _ _ _ _ _ NB H) as [[_ _ F T _] _].
  assert (X : c = KGrain \/ k = $"grain_type" /\ c <> KGrain \/ (k <> part_name c /\ k <> $"grain_type" /\ c <> KGrain)).
  { destruct (class_dec c) as [->|N]; [auto|]. destruct (list_eq_dec Z.eq_dec k $"grain_type") as [->|M]; [auto|]. right; right. split; auto. intros ->. apply (part_not_standard c N I). }
  assert (S : dget k (standard now (fields m)) <> None) by (intros E; apply dget_none in E; apply E; exact I).
  destruct X as [X|[[-> N]|(A & B & _)]].
  - rewrite F by auto. unfold field_after. destruct (dget k (standard now (fields m))); [discriminate|destruct S; reflexivity].
  - rewrite (T N). discriminate.
  - rewrite F by auto. unfold field_after. destruct (dget k (standard now (fields m))); [discriminate|destruct S; reflexivity].
Qed.
