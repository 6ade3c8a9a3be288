(** More proofs about the tools: the sizes of the grains, and input that cannot be written or read to its end. *)
From Coq Require Import String Lia ZifyBool ZifyNat.
From Verif Require Import Base BaseProofs GsfPrim GsfDecode CogEnums GsfEncode GsfEncState VideoLayout LayoutSpec LayoutProofs JsonProofs PyValue GrainObj BuildSpec BuildKw GrainGsf Tools ToolsSpec.
Local Open Scope list_scope.

Lemma part_ends l : map_res part_end (map comp_dict l) = Ok (map (fun c => vc_offset c + vc_length c) l).
Proof. induction l as [|c l IH]; [reflexivity|]. cbn [map map_res]. rewrite IH. reflexivity. Qed.
Lemma furthest_comps l : furthest (map (fun c => vc_offset c + vc_length c) l) = video_expected_length l.
Proof. unfold furthest, video_expected_length. generalize 0. induction l as [|c l IH]; intros z; [reflexivity|]. cbn [map fold_left]. apply IH. Qed.
Lemma video_class now k fmt w h layout a o : kw_video now k fmt w h layout a = Ok o -> o_class o = KVideo.
Proof.
  unfold kw_video. intros H. change (PDict [($"format", PInt fmt); ($"width", PInt w); ($"height", PInt h); ($"layout", PInt layout); ($"extension", PInt 0); ($"components", PList [])])
    with (video_part_kw fmt w h layout (PList [])) in H. rewrite video_init_kw in H. apply rbind_ok in H as (a' & Z & H). apply Ok_eq in H. subst o. destruct a'; reflexivity.
Qed.
Lemma audio_class now k fmt samples channels rate a o : kw_audio now k fmt samples channels rate a = Ok o -> o_class o = KAudio /\ getattr o $"format" = getattr o $"cog_audio_format".
Proof.
  unfold kw_audio. intros H. change (PDict [($"format", PInt fmt); ($"samples", PInt samples); ($"channels", PInt channels); ($"sample_rate", PInt rate)])
    with (audio_part_kw fmt samples channels rate) in H. rewrite audio_init_kw in H. apply rbind_ok in H as (a' & Z & H). apply Ok_eq in H. subst o. destruct a'; split; reflexivity.
Qed.

(** The grains of a picture or a sound are expected to have the size of a new one. *)
Theorem expected_video now k fmt w h layout a o : kw_video now k fmt w h layout a = Ok o -> 0 <= w -> 0 <= h ->
  exists e b, kw_video now k fmt w h layout ANone = Ok e /\ get_data e = Ok (Some b) /\ expected_length o = Ok (zlen b) /\ expected_length e = Ok (zlen b).
Proof.
  intros H W0 H0. pose proof (size_nonneg fmt w h W0 H0) as S. destruct (proj2 (video_kw_total now k fmt w h layout ANone) (fun _ => S)) as [e E].
  assert (A : forall a o, kw_video now k fmt w h layout a = Ok o -> expected_length o = Ok (size_for_format fmt w h)).
  { clear - W0 H0. intros a o H. unfold expected_length, components. rewrite (video_class _ _ _ _ _ _ _ _ H). destruct (video_kw _ _ _ _ _ _ _ _ H) as (_ & _ & _ & _ & _ & _ & C). rewrite C.
    cbn [rbind as_list]. rewrite part_ends. cbn [rbind]. rewrite furthest_comps. f_equal. unfold video_expected_length. apply (expected_tiles _ 0 _ 0); [apply components_tile; assumption|reflexivity|lia]. }
  destruct (video_kw _ _ _ _ _ _ _ _ E) as (_ & P & _). cbn [payload_is] in P. destruct P as (_ & (b & B & L & _) & _).
  exists e, b. rewrite (A _ _ H), (A _ _ E), L. auto.
Qed.
Theorem expected_audio now k fmt samples channels rate a o : kw_audio now k fmt samples channels rate a = Ok o -> member audio_formats fmt = true -> 0 <= samples -> 0 <= channels ->
  exists e b, kw_audio now k fmt samples channels rate ANone = Ok e /\ get_data e = Ok (Some b) /\ expected_length o = Ok (zlen b) /\ expected_length e = Ok (zlen b).
Proof.
  intros H M S0 C0. pose proof (audio_monotone fmt channels channels samples samples ltac:(lia) ltac:(lia)) as [S _].
  destruct (proj2 (audio_kw_total now k fmt samples channels rate ANone) (fun _ => S)) as [e E].
  assert (A : forall a o, kw_audio now k fmt samples channels rate a = Ok o -> expected_length o = Ok (size_for_audio_format fmt channels samples)).
  { clear - M. intros a o H. unfold expected_length, attr. destruct (audio_class _ _ _ _ _ _ _ _ H) as [-> ->]. destruct (audio_kw _ _ _ _ _ _ _ _ H) as (_ & _ & F1 & F2 & _ & F3).
    unfold attr_is in *. rewrite F1, F2, (F3 M). reflexivity. }
  destruct (audio_kw _ _ _ _ _ _ _ _ E) as (_ & P & _). cbn [payload_is] in P. destruct P as (_ & (b & B & L & _) & _).
  exists e, b. rewrite (A _ _ H), (A _ _ E), L. auto.
Qed.
(** Coded grains have no size but that of their payload. *)
Theorem expected_coded now k fmt ow oh cw ch key temporal len layout offs a o b : kw_coded_video now k fmt ow oh cw ch key temporal len layout offs a = Ok o ->
  get_data o = Ok (Some b) -> expected_length o = Ok (zlen b).
Proof.
  unfold kw_coded_video. intros H. set (cw' := match cw with Some z => z | None => ow end) in *. set (ch' := match ch with Some z => z | None => oh end) in *.
  replace ([($"format", PInt fmt); ($"origin_width", PInt ow); ($"origin_height", PInt oh); ($"coded_width", PInt cw'); ($"coded_height", PInt ch'); ($"layout", PInt layout)] ++
           opt_field $"is_key_frame" (option_map PBool key) ++ opt_field $"temporal_offset" (option_map PInt temporal))
    with ([($"format", PInt fmt); ($"origin_width", PInt ow); ($"origin_height", PInt oh); ($"coded_width", PInt cw'); ($"coded_height", PInt ch'); ($"layout", PInt layout)] ++
           opt_field $"is_key_frame" (option_map PBool key) ++ opt_field $"temporal_offset" (option_map PInt temporal) ++ []) in H by (rewrite app_nil_r; reflexivity).
  match type of H with context [($"cog_coded_frame", ?p)] => change p with (coded_video_part_kw fmt ow oh cw' ch' layout key temporal []) in H end.
  rewrite coded_video_init_kw in H. apply rbind_ok in H as (a' & Z & H). apply Ok_eq in H. subst o.
  match goal with |- context [($"cog_coded_frame", ?p)] => set (part := p) in * end. clearbody part. clear Z.
  intros D. destruct a' as [|b'|]; try discriminate D. apply Ok_eq in D. injection D as <-. reflexivity.
Qed.
Theorem expected_coded_audio now k fmt samples channels priming remainder rate len a o b : kw_coded_audio now k fmt samples channels priming remainder rate len a = Ok o ->
  get_data o = Ok (Some b) -> expected_length o = Ok (zlen b).
Proof.
  unfold kw_coded_audio. intros H. change (PDict [($"format", PInt fmt); ($"samples", PInt samples); ($"channels", PInt channels); ($"priming", PInt priming); ($"remainder", PInt remainder); ($"sample_rate", PInt rate)])
    with (coded_audio_part_kw fmt samples channels priming remainder rate) in H. rewrite coded_audio_init_kw in H. apply rbind_ok in H as (a' & Z & H). apply Ok_eq in H. subst o. clear Z.
  intros D. destruct a' as [|b'|]; try discriminate D. apply Ok_eq in D. injection D as <-. reflexivity.
Qed.

(** A grain that cannot be written ends the wrapping as if the wrapper had raised there. *)
Theorem unwritable id created t os1 o os2 x y out : read_grain o = Err x ->
  wrap_to_gsf id created t (os1 ++ o :: os2, y) out = wrap_to_gsf id created t (os1, Some x) out.
Proof.
  intros R. unfold wrap_to_gsf. cbn [fst snd]. destruct (attr as_id $"flow_id" t) as [flow|]; [|reflexivity].
  destruct (enc_add_segment _ flow None []) as [e [l|]]; [|reflexivity]. destruct (GsfEncState.step e (StartDump false)) as [e1 [u|]]; [|reflexivity].
  assert (F : forall os1 e1, feed l (os1 ++ o :: os2) e1 = match feed l os1 e1 with (e2, Ok _) => (e2, Err x) | r => r end).
  { clear - R. induction os1 as [|o1 os1 IH]; intros e1.
    - cbn [app feed]. rewrite R. reflexivity.
    - cbn [app feed]. destruct (read_grain o1) as [g|]; [|reflexivity]. destruct (GsfEncState.step e1 _) as [e2 [u|]]; [apply IH|reflexivity]. }
  rewrite F. destruct (feed l os1 e1) as [e2 [u'|]]; reflexivity.
Qed.

(** Extraction from a file that cannot be read to its end: the essence of the grains before, then the exception. *)
Theorem extract_early ids now seekable f s l s' e bs : decode_file (reading ids LoadImmediately seekable) f = Ok (s, (l, s', Raised e)) ->
  Forall2 (fun i b => exists o, item_object now (f_data f) i = Ok o /\ get_data o = Ok (Some b)) l bs ->
  extract ids now seekable f = (concat bs, Err e).
Proof.
  intros D F. unfold extract. rewrite D. assert (E : essence now (f_data f) l = (concat bs, Ok tt)).
  { clear D. induction F as [|i b l bs (o & O & G) F IH]; [reflexivity|]. cbn [essence concat]. rewrite O. cbn [rbind]. rewrite G, IH. reflexivity. }
  rewrite E. reflexivity.
Qed.
