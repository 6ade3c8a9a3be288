From Coq Require Import String Lia ZifyBool ZifyNat.
From Verif Require Import Base BaseProofs PyValue PyValueProofs Json JsonProofs CogEnums VideoLayout GrainObj Event EventSpec BuildSpec BuildProofs BuildMain BuildKw
  GrainSet GrainSetSpec GrainCopy GrainCopySpec GrainCopyProofs Tools Strategies StrategySpec.
Local Open Scope list_scope.

(** ** The grains that the constructors make without a payload. *)
Lemma audio_shape now k f s c r : 0 <= size_for_audio_format f c s ->
  kw_audio now k f s c r ANone = Ok (kw_obj KAudio now k (audio_part_kw f s c r) (Some (zeros (Z.to_nat (size_for_audio_format f c s)))) None).
Proof.
  intros H. unfold kw_audio. change (PDict [($"format", PInt f); ($"samples", PInt s); ($"channels", PInt c); ($"sample_rate", PInt r)]) with (audio_part_kw f s c r).
  rewrite audio_init_kw. unfold or_zeros. destruct (size_for_audio_format f c s <? 0) eqn:E; [lia|]. reflexivity.
Qed.
Lemma video_shape now k f w h l : 0 <= size_for_format f w h ->
  kw_video now k f w h l ANone = Ok (kw_obj KVideo now k (video_part_kw f w h l (PList (map comp_dict (components_for_format f w h)))) (Some (zeros (Z.to_nat (size_for_format f w h)))) None).
Proof.
  intros H. unfold kw_video. change (PDict [($"format", PInt f); ($"width", PInt w); ($"height", PInt h); ($"layout", PInt l); ($"extension", PInt 0); ($"components", PList [])])
    with (video_part_kw f w h l (PList [])).
  rewrite video_init_kw. unfold or_zeros. destruct (size_for_format f w h <? 0) eqn:E; [lia|]. reflexivity.
Qed.
Lemma coded_audio_shape now k f s c p m r :
  kw_coded_audio now k f s c p m r None ANone = Ok (kw_obj KCodedAudio now k (coded_audio_part_kw f s c p m r) (Some []) None).
Proof.
  unfold kw_coded_audio. change (PDict [($"format", PInt f); ($"samples", PInt s); ($"channels", PInt c); ($"priming", PInt p); ($"remainder", PInt m); ($"sample_rate", PInt r)])
    with (coded_audio_part_kw f s c p m r). rewrite coded_audio_init_kw. reflexivity.
Qed.
Definition coded_end (u : option (list Z)) : dict := opt_field $"unit_offsets" (option_map PList (option_map (map PInt) u)) ++ [($"length", PInt 0)].
Lemma coded_video_shape now k f ow oh cw ch key temporal l u :
  kw_coded_video now k f ow oh (Some cw) (Some ch) key temporal None l u ANone =
  Ok (kw_obj KCodedVideo now k (coded_video_part_kw f ow oh cw ch l key temporal (coded_end u)) (Some []) None).
Proof.
  unfold kw_coded_video.
  replace ([($"format", PInt f); ($"origin_width", PInt ow); ($"origin_height", PInt oh); ($"coded_width", PInt cw); ($"coded_height", PInt ch); ($"layout", PInt l)] ++
           opt_field $"is_key_frame" (option_map PBool key) ++ opt_field $"temporal_offset" (option_map PInt temporal))
    with ([($"format", PInt f); ($"origin_width", PInt ow); ($"origin_height", PInt oh); ($"coded_width", PInt cw); ($"coded_height", PInt ch); ($"layout", PInt l)] ++
           opt_field $"is_key_frame" (option_map PBool key) ++ opt_field $"temporal_offset" (option_map PInt temporal) ++ []) by (rewrite app_nil_r; reflexivity).
  match goal with |- context [($"cog_coded_frame", ?p)] => change p with (coded_video_part_kw f ow oh cw ch l key temporal []) end.
  rewrite coded_video_init_kw. unfold coded_end. destruct u; reflexivity.
Qed.
Definition event_part (kind topic : str) (es : list pv) : pv := PDict [($"type", PStr kind); ($"topic", PStr topic); ($"data", PList es)].
Lemma event_shape now k kind topic : kw_event now k kind topic ANone = Ok (kw_obj KEvent now k (event_part kind topic []) None None).
Proof. destruct k as [src flow origin sync creation [rn rd] [dn dd]]. destruct src, flow; vm_compute; reflexivity. Qed.
Definition empty_obj (now : Z) (k : kw) : gobj := mkO KGrain (kw_grain $"empty" now k []) None None.
Lemma empty_shape now k s f : k_src k = Some s -> k_flow k = Some f -> kw_factory now k ANone = Ok (empty_obj now k).
Proof. destruct k as [src flow origin sync creation [rn rd] [dn dd]]. cbn [k_src k_flow]. intros -> ->. vm_compute. reflexivity. Qed.

(** ** Appending to an event. *)
Lemma append_shape now k kind topic es path pre post :
  apply_op (Append path pre post) (kw_obj KEvent now k (event_part kind topic es) None None) =
  (kw_obj KEvent now k (event_part kind topic (es ++ [PDict (new_entry path pre post)])) None None, None).
Proof. destruct k as [src flow origin sync creation [rn rd] [dn dd]]. reflexivity. Qed.
Definition three (v : pv) : res (pv * pv * pv) :=
  rbind (sub $"path" v) (fun path => rbind (sub $"pre" v) (fun pre => rbind (sub $"post" v) (fun post => Ok (path, pre, post)))).
Definition entry_of (x : pv * pv * pv) : pv := let '(path, pre, post) := x in PDict (new_entry path pre post).
Lemma append_all_shape now k kind topic l : forall es,
  append_all l (kw_obj KEvent now k (event_part kind topic es) None None) =
  rbind (map_res three l) (fun xs => Ok (kw_obj KEvent now k (event_part kind topic (es ++ map entry_of xs)) None None)).
Proof.
  induction l as [|v l IH]; intros es; cbn [append_all map_res rbind map].
  - rewrite app_nil_r. reflexivity.
  - unfold three at 1. destruct (sub $"path" v) as [path|]; [|reflexivity]. cbn [rbind]. destruct (sub $"pre" v) as [pre|]; [|reflexivity]. cbn [rbind].
    destruct (sub $"post" v) as [post|]; [|reflexivity]. cbn [rbind]. rewrite append_shape, IH. destruct (map_res three l) as [xs|]; [|reflexivity]. cbn [rbind map entry_of].
    rewrite <- app_assoc. reflexivity.
Qed.
