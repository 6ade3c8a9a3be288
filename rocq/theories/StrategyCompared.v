From Coq Require Import String Lia ZifyBool ZifyNat.
From Verif Require Import Base BaseProofs GsfPrim GsfPrimProofs GsfDecode GsfEncode GsfSpec GsfFileSpec PyValue PyValueProofs Json JsonProofs CogEnums VideoLayout GrainObj Event EventSpec EventMain
  BuildSpec BuildProofs BuildMain BuildKw GrainSet GrainSetSpec GrainCopy GrainCopySpec GrainCopyProofs GrainCopyMade GrainCopyApart Compare CompareSpec GrainGsf GrainGsfSpec GrainGsfRead GrainGsfFileSpec
  SavedSpec PyValue GrainObj Tools ToolsMain Strategies StrategySpec StrategyProofs StrategyArgs StrategyDraw StrategyData StrategySaved.
From Verif Require Import StrFormat StrFormatProofs.
From Verif Require CompareExample EventProofs.
Local Open Scope list_scope.

(** ** What a comparison looks at. *)
Ltac keys := apply CompareExample.keys_differ; vm_compute; reflexivity.
Lemma frac_dict_ok n d : pv_ok (frac_dict n d).
Proof. apply ok_dict; [keys|]. repeat constructor. Qed.
Lemma id_ok u : pv_ok (id_text u). Proof. destruct u; constructor. Qed.
Lemma dict_ok_of l : NoDup (map fst l) -> Forall pv_ok (map snd l) -> pv_ok (PDict l).
Proof. intros N F. apply ok_dict; [exact N|]. exact (proj1 (Forall_map snd pv_ok l) F). Qed.
Lemma grain_meta_ok kind now k more : NoDup (map fst ([($"grain_type", PStr kind); ($"source_id", id_text (k_src k)); ($"flow_id", id_text (k_flow k)); ($"origin_timestamp", PNone); ($"sync_timestamp", PNone);
  ($"creation_timestamp", PNone); ($"rate", PNone); ($"duration", PNone)] ++ more)) -> Forall pv_ok (map snd more) -> pv_ok (PDict (kw_grain kind now k more)).
Proof.
  intros N F. unfold kw_grain. apply dict_ok_of; [keys|]. cbn [map snd]. constructor; [constructor|]. constructor; [|constructor]. apply dict_ok_of.
  - rewrite map_app in *. exact N.
  - rewrite map_app. apply Forall_app. split; [|exact F]. cbn [map snd].
    repeat (apply Forall_cons; [first [apply id_ok | apply frac_dict_ok | constructor]|]). constructor.
Qed.
Lemma kw_meta_ok c now k part d w : c <> KGrain -> pv_ok part -> meta_ok (kw_obj c now k part d w).
Proof.
  intros N P. unfold meta_ok. cbn [kw_obj o_meta]. apply grain_meta_ok; [|constructor; [exact P|constructor]]. destruct c; try (destruct (N eq_refl)); keys.
Qed.
Definition plain_read (o : gobj) (n : str) : Prop := readable o n.
Lemma can_compare_of psnr opts r d type now k o : common_are k now type o -> drawn_kw r d k -> rat_ok r -> rat_ok d -> labels o = Ok [] -> readable o $"length" ->
  (type = $"event" -> keys_spelled entries o o) ->
  can_type psnr (PStr type) opts o o -> can_compare psnr opts o o.
Proof.
  intros [Ct Cs Cf Cc Co Cy Cr Cd] [(s & Es & Hs) (f & Ef & Hf) (og & Eo & Ho) (y & Ey & Hy) (c & Ec & Hc) Er Ed] R D L LN KE T. destruct r as [rn rd], d as [dn dd]. constructor.
  - intros o' [->| ->] n I; cbn [In] in I; repeat destruct I as [<-|I]; try (destruct I; fail); try exact LN;
      [exists (PStr type); exact Ct|exists (PUuid s); exact (proj2 (Cs s Es))|exists (PUuid f); exact (Cf f Ef)|exists (PFrac rn rd); exact (Cr rn rd Er (proj1 R) (proj2 R))|exists (PFrac dn dd); exact (Cd dn dd Ed (proj1 D) (proj2 D))
      |exists (PStr type); exact Ct|exists (PUuid s); exact (proj2 (Cs s Es))|exists (PUuid f); exact (Cf f Ef)|exists (PFrac rn rd); exact (Cr rn rd Er (proj1 R) (proj2 R))|exists (PFrac dn dd); exact (Cd dn dd Ed (proj1 D) (proj2 D))].
  - intros o' [->| ->] n I; cbn [In] in I; repeat destruct I as [<-|I]; try (destruct I; fail); eexists; [exact Co|exact Cy|exact Cc|exact Co|exact Cy|exact Cc].
  - intros o' [->| ->]; exists []; exact L.
  - intros t u E _ _. rewrite Ct in E. apply Ok_eq in E. subst t. exact T.
  - intros la lb i d' e k' A _ N. rewrite L in A. apply Ok_eq in A. subst la. destruct i; discriminate N.
  - intros E _. unfold has_type in E. rewrite Ct in E. apply Ok_eq in E. apply KE. congruence.
Qed.
Lemma can_data_of psnr w unit opts o x : no_matchers opts -> get_data o = Ok x -> (forall b, x = Some b -> zlen b mod unit = 0) -> can_data psnr w unit opts o o.
Proof.
  intros [_ N] X U. split.
  - intros _ (m & I). destruct (N _ _ I).
  - intros _ o' [->| ->]; exists x; split; assumption.
Qed.
(** Only one clause counts. *)
Lemma type_audio psnr opts o : (forall n, In n [$"cog_audio_format"; $"samples"; $"channels"; $"sample_rate"] -> readable o n) -> can_if_format psnr true $"cog_audio_format" audio_unit opts o o ->
  can_type psnr (PStr $"audio") opts o o.
Proof.
  intros R C. constructor; try (intros X; vm_compute in X; discriminate X).
  - intros _. split; [intros o' [->| ->]; exact R|exact C].
  - intros X. destruct X. apply in_map. cbn [known_types In]. auto 10.
Qed.
Lemma type_coded_audio psnr opts o : (forall n, In n [$"cog_audio_format"; $"samples"; $"channels"; $"sample_rate"; $"priming"; $"remainder"] -> readable o n) ->
  can_if_format psnr false $"cog_audio_format" (fun _ => 1) opts o o -> can_type psnr (PStr $"coded_audio") opts o o.
Proof.
  intros R C. constructor; try (intros X; vm_compute in X; discriminate X).
  - intros _. split; [intros o' [->| ->]; exact R|exact C].
  - intros X. destruct X. apply in_map. cbn [known_types In]. auto 10.
Qed.
Lemma type_video psnr opts o : (forall n, In n [$"cog_frame_format"; $"width"; $"height"; $"cog_frame_layout"] -> readable o n) -> can_if_format psnr true $"cog_frame_format" video_unit opts o o ->
  can_type psnr (PStr $"video") opts o o.
Proof.
  intros R C. constructor; try (intros X; vm_compute in X; discriminate X).
  - intros _. split; [intros o' [->| ->]; exact R|exact C].
  - intros X. destruct X. apply in_map. cbn [known_types In]. auto 10.
Qed.
Lemma type_coded_video psnr opts o l : (forall n, In n [$"cog_frame_format"; $"coded_width"; $"coded_height"; $"origin_width"; $"origin_height"; $"is_key_frame"; $"temporal_offset"; $"cog_frame_layout"] -> readable o n) ->
  rbind (offsets o) (map_res as_number) = Ok l -> can_if_format psnr false $"cog_frame_format" (fun _ => 1) opts o o -> can_type psnr (PStr $"coded_video") opts o o.
Proof.
  intros R L C. constructor; try (intros X; vm_compute in X; discriminate X).
  - intros _. split; [|exact C]. intros o' [->| ->]; (split; [apply R; left; reflexivity|]; split; [|exists l; exact L]; intros n I; left; apply R; right; exact I).
  - intros X. destruct X. apply in_map. cbn [known_types In]. auto 10.
Qed.
Lemma type_event psnr opts o d : readable o $"event_type" -> readable o $"topic" -> rbind (event_entries o) (map_res as_dict) = Ok d -> can_type psnr (PStr $"event") opts o o.
Proof.
  intros R1 R2 D. constructor; try (intros X; vm_compute in X; discriminate X).
  - intros _ o' [->| ->]; (split; [exact R1|]; split; [exact R2|]; exists d; exact D).
  - intros X. destruct X. apply in_map. cbn [known_types In]. auto 10.
Qed.
Lemma type_empty psnr opts o : can_data psnr false 1 opts o o -> can_type psnr (PStr $"empty") opts o o.
Proof. intros C. constructor; try (intros X; vm_compute in X; discriminate X). intros _. exact C. Qed.

(** ** Version 7 has no sign. *)
Lemma kept_of major o : fits_version major o -> labels o = Ok [] -> (forall n v, In n (number_names (o_class o)) -> n <> $"extension" -> getattr o n = Ok v -> exists z, whole v z) ->
  o_class o <> KCodedVideo -> o_class o <> KEvent -> match o_class o with KEvent => True | KGrain => o_data o <> Some [] | _ => o_data o <> None end -> kept_exactly major o.
Proof.
  intros [_ V] L N C1 C2 D. constructor; trivial.
  - intros l E. rewrite L in E. apply Ok_eq in E. subst l. constructor.
  - intros X. destruct (C1 X).
  - intros X. destruct (C1 X).
  - intros X. destruct (C2 X).
Qed.
Lemma audio_depth f c s : sampled audio_sample f -> exists m, size_for_audio_format f c s = m * audio_unit f.
Proof.
  intros H. apply sampled_in in H. unfold audio_sample in H. cbn [In] in H.
  repeat destruct H as [<-|H]; [..|destruct H];
    first [exists (c * s); reflexivity | exists ((c + 1) / 2 * 2 * s); reflexivity | match goal with |- exists m, ?x = m * ?u => exists x; change u with 1; lia end].
Qed.
Lemma audio_units f c s : sampled audio_sample f -> size_for_audio_format f c s mod audio_unit f = 0.
Proof.
  intros H. destruct (audio_depth f c s H) as (m & ->). apply Z.mod_mul. assert (F : forallb (fun f => negb (audio_unit f =? 0)) audio_sample = true) by (vm_compute; reflexivity).
  pose proof (sampled_all _ _ _ F H) as E. cbv beta in E. lia.
Qed.
Lemma video_units f : sampled video_sample f -> size_for_format f 16 9 mod video_unit f = 0.
Proof.
  intros H. assert (F : forallb (fun f => size_for_format f 16 9 mod video_unit f =? 0) video_sample = true) by (vm_compute; reflexivity).
  pose proof (sampled_all _ _ _ F H) as E. cbv beta in E. lia.
Qed.
Lemma whole_int z : exists y, whole (PInt z) y. Proof. exists z. reflexivity. Qed.
Ltac kw_cases := match goal with k : kw |- _ => destruct k as [? ? ? ? ? [? ?] [? ?]] end.
Ltac ints := let n := fresh "n" in let v := fresh "v" in let I := fresh "I" in let NE := fresh "NE" in let E := fresh "E" in
  intros n v I NE E; cbn [kw_obj o_class number_names In] in I; repeat destruct I as [<-|I]; try (destruct I; fail); try (destruct (NE eq_refl)).
Ltac whole_attr E := match type of E with ?x = Ok ?v => match goal with |- _ => let H := fresh "H" in assert (H : exists z, x = Ok (PInt z)) by (kw_cases; eexists; reflexivity); destruct H as (z & H); rewrite H in E; apply Ok_eq in E; subst v; apply whole_int end end.

Lemma audio_comparable psnr opts major now b o : is_audio_with now b o -> plain_options opts -> fits_version major o -> comparable psnr opts major o /\ no_nan o.
Proof.
  intros (k & f & s & c & r & K & F & S & C & R & E0 & L & B & P) [O _] V. destruct rats as (R1 & _ & R3 & _). assert (M : member audio_formats f = true) by apply (audio_format_drawn f F).
  assert (GD : get_data o = Ok (Some b)) by (subst o; reflexivity).
  assert (NN : no_nan o).
  { intros g x G X. rewrite GD in X. apply Ok_eq in X. assert (x = b) by congruence. subst x. assert (G' : getattr o $"cog_audio_format" = Ok (PInt f)) by (subst o; apply audio_format_attr; exact M).
    rewrite G' in G. assert (g = f) by congruence. subst g. destruct P as [P1 P2]. split; [intros A i I; exact (proj1 (P1 A i I))|intros A i I; exact (proj1 (P2 A i I))]. }
  split; [|exact NN]. split; [|split; [|split; [|split; [|split]]]].
  - subst o. apply kept_of; try apply no_labels; trivial; try discriminate. ints; whole_attr E.
  - subst o. apply kw_own. discriminate.
  - subst o. apply kw_meta_ok; [discriminate|]. apply dict_ok_of; [keys|]. repeat constructor.
  - intros x X. assert (x = b) by (subst o; cbn [kw_obj o_data] in X; congruence). subst x. exact B.
  - exact NN.
  - subst o. apply (can_compare_of psnr opts (25, 1) (1, 25) $"audio" now k); try apply no_labels; trivial; [apply (kw_common KAudio); discriminate|eexists; apply length_attr; try discriminate; intros [X|X]; discriminate X|intros X; vm_compute in X; discriminate X|].
    apply type_audio.
    + intros n I. cbn [In] in I. repeat destruct I as [<-|I]; try (destruct I; fail); [eexists; apply audio_format_attr; exact M|kw_cases; eexists; reflexivity..].
    + intros g G _. rewrite (proj1 (audio_format_attr now k f s c r (Some b) None M)) in G. assert (g = f) by congruence. subst g.
      apply (can_data_of psnr true (audio_unit f) opts _ (Some b) O GD). intros x X. assert (x = b) by congruence. subst x. rewrite L. exact (audio_units f c s F).
Qed.
Lemma video_comparable psnr opts major now b o : is_video_with now b o -> plain_options opts -> fits_version major o -> comparable psnr opts major o /\ no_nan o.
Proof.
  intros (k & f & l & K & F & L & E0 & LB & B) [O _] V. destruct rats as (R1 & _ & R3 & _). assert (M : member frame_formats f = true) by apply (video_format_drawn f F).
  assert (ML : member frame_layouts l = true) by apply (layout_drawn l L). set (cs := components_for_format f 16 9) in *. assert (GD : get_data o = Ok (Some b)) by (subst o; reflexivity).
  assert (PO : pv_ok (video_part_kw f 16 9 l (PList (map comp_dict cs)))).
  { apply dict_ok_of; [keys|]. cbn [map snd]. repeat (apply Forall_cons; [constructor|]); [|constructor]. apply Forall_map, Forall_forall. intros x _. apply dict_ok_of; [keys|]. repeat constructor. }
  clearbody cs.
  assert (NN : no_nan o) by (intros g x G; subst o; kw_cases; vm_compute in G; discriminate G).
  split; [|exact NN]. split; [|split; [|split; [|split; [|split]]]].
  - subst o. apply kept_of; try apply no_labels; trivial; try discriminate. ints; whole_attr E.
  - subst o. apply kw_own. discriminate.
  - subst o. apply kw_meta_ok; [discriminate|exact PO].
  - intros x X. assert (x = b) by (subst o; cbn [kw_obj o_data] in X; congruence). subst x. exact B.
  - exact NN.
  - subst o. apply (can_compare_of psnr opts (25, 1) (1, 25) $"video" now k); try apply no_labels; trivial; [apply (kw_common KVideo); discriminate|eexists; apply length_attr; try discriminate; intros [X|X]; discriminate X|intros X; vm_compute in X; discriminate X|].
    apply type_video.
    + intros n I. cbn [In] in I. repeat destruct I as [<-|I]; try (destruct I; fail); [eexists; apply video_format_attr; exact M|kw_cases; eexists; reflexivity..|eexists; apply video_layout_attr; exact ML].
    + intros g G _. rewrite (video_format_attr now k f 16 9 l _ (Some b) None M) in G. assert (g = f) by congruence. subst g.
      apply (can_data_of psnr true (video_unit f) opts _ (Some b) O GD). intros x X. assert (x = b) by congruence. subst x. rewrite LB. exact (video_units f F).
Qed.
Lemma coded_audio_comparable psnr opts major now o : is_coded_audio now o -> plain_options opts -> fits_version major o -> comparable psnr opts major o /\ no_nan o.
Proof.
  intros (k & f & s & c & r & K & F & S & C & R & E0) [O _] V. destruct rats as (R1 & _ & R3 & _). assert (M : member audio_formats f = true) by apply (coded_audio_format_drawn f F).
  assert (GD : get_data o = Ok (Some [])) by (subst o; reflexivity).
  assert (NN : no_nan o).
  { intros g x G X. rewrite GD in X. apply Ok_eq in X. assert (x = []) by congruence. subst x. split; intros A i I; change (zlen (@nil Z)) with 0 in I; rewrite Z.div_0_l in I by lia; lia. }
  split; [|exact NN]. split; [|split; [|split; [|split; [|split]]]].
  - subst o. apply kept_of; try apply no_labels; trivial; try discriminate. ints; whole_attr E.
  - subst o. apply kw_own. discriminate.
  - subst o. apply kw_meta_ok; [discriminate|]. apply dict_ok_of; [keys|]. repeat constructor.
  - intros x X. assert (x = []) by (subst o; cbn [kw_obj o_data] in X; congruence). subst x. constructor.
  - exact NN.
  - subst o. apply (can_compare_of psnr opts (25, 1) (1, 25) $"coded_audio" now k); try apply no_labels; trivial; [apply (kw_common KCodedAudio); discriminate|kw_cases; eexists; reflexivity|intros X; vm_compute in X; discriminate X|].
    apply type_coded_audio.
    + intros n I. cbn [In] in I. repeat destruct I as [<-|I]; try (destruct I; fail); [eexists; apply coded_audio_format_attr; exact M|kw_cases; eexists; reflexivity..].
    + intros g _ _. apply (can_data_of psnr false 1 opts _ (Some []) O GD). intros x X. assert (x = []) by congruence. subst x. reflexivity.
Qed.
Lemma coded_part_ok f w h cw ch l key tm u : pv_ok (coded_video_part_kw f w h cw ch l (Some key) (Some tm) (coded_end u)).
Proof.
  unfold coded_video_part_kw, coded_end. destruct u as [u|]; cbn [option_map opt_field app].
  - apply dict_ok_of; [keys|]. cbn [map snd]. repeat (apply Forall_cons; [first [apply ok_list, Forall_map, Forall_forall; intros; constructor | constructor]|]). constructor.
  - apply dict_ok_of; [keys|]. repeat constructor.
Qed.
Lemma map_res_numbers zs : map_res as_number (map PInt zs) = Ok zs.
Proof. induction zs as [|z zs IH]; cbn [map map_res rbind]; [reflexivity|]. rewrite IH. reflexivity. Qed.
Lemma coded_video_comparable psnr opts major now o : is_coded_video 16 9 now o -> plain_options opts -> fits_version major o -> comparable psnr opts major o /\ no_nan o.
Proof.
  intros (k & f & l & key & tm & u & K & F & L & T & U & E0) [O _] V. destruct rats as (R1 & _ & R3 & _). assert (M : member frame_formats f = true) by apply (coded_video_format_drawn f F).
  assert (ML : member frame_layouts l = true) by apply (layout_drawn l L). assert (GD : get_data o = Ok (Some [])) by (subst o; reflexivity). pose proof (coded_part_ok f 16 9 240 135 l key tm u) as PO.
  pose proof (offsets_of now k f 16 9 240 135 l key tm u (Some []) None) as OF.
  assert (KF : getattr o $"is_key_frame" = Ok (PBool key)) by (subst o; kw_cases; destruct u; reflexivity).
  assert (TO : getattr o $"temporal_offset" = Ok (PInt tm)) by (subst o; kw_cases; destruct u; reflexivity).
  assert (NN : no_nan o) by (intros g x G; subst o; kw_cases; destruct u; vm_compute in G; discriminate G).
  split; [|exact NN]. split; [|split; [|split; [|split; [|split]]]].
  - destruct V as [V1 V]. constructor.
    + exact V.
    + intros ls E. assert (LO : labels o = Ok []) by (subst o; apply no_labels). rewrite LO in E. apply Ok_eq in E. subst ls. constructor.
    + subst o. ints; (match type of E with ?x = Ok ?v => let H := fresh "H" in assert (H : exists z, x = Ok (PInt z)) by (kw_cases; destruct u; eexists; reflexivity); destruct H as (z & H); rewrite H in E; apply Ok_eq in E; subst v; apply whole_int end).
    + intros _ _ X. rewrite KF in X. discriminate X.
    + intros _ v X. rewrite TO in X. apply Ok_eq in X. subst v. right. exists tm. split; [reflexivity|]. intros _. lia.
    + subst o. cbn [kw_obj o_class o_data]. discriminate.
    + intros X. subst o. discriminate X.
  - subst o. apply kw_own. discriminate.
  - subst o. apply kw_meta_ok; [discriminate|exact PO].
  - intros x X. assert (x = []) by (subst o; cbn [kw_obj o_data] in X; congruence). subst x. constructor.
  - exact NN.
  - subst o. apply (can_compare_of psnr opts (25, 1) (1, 25) $"coded_video" now k); try apply no_labels; trivial; [apply (kw_common KCodedVideo); discriminate|kw_cases; destruct u; eexists; reflexivity|intros X; vm_compute in X; discriminate X|].
    apply (type_coded_video psnr opts _ (or_else u [])).
    + intros n I. cbn [In] in I. repeat destruct I as [<-|I]; try (destruct I; fail); [eexists; apply coded_video_format_attr; exact M|..|eexists; apply coded_video_layout_attr; exact ML];
        kw_cases; destruct u; eexists; reflexivity.
    + rewrite OF. cbn [rbind]. apply map_res_numbers.
    + intros g _ _. apply (can_data_of psnr false 1 opts _ (Some []) O GD). intros x X. assert (x = []) by congruence. subst x. reflexivity.
Qed.
Lemma empty_comparable psnr opts major now o : is_empty now o -> plain_options opts -> fits_version major o -> comparable psnr opts major o /\ no_nan o.
Proof.
  intros (k & K & E0) [O _] V. destruct rats as (_ & _ & _ & _ & R & _). destruct (dk_src _ _ _ K) as (s & S & _). destruct (dk_flow _ _ _ K) as (f & F & _).
  pose proof (empty_common now k s f S F) as CA. assert (GD : get_data o = Ok None) by (subst o; reflexivity).
  assert (NN : no_nan o) by (intros g x _ X; rewrite GD in X; discriminate X).
  split; [|exact NN]. split; [|split; [|split; [|split; [|split]]]].
  - subst o. apply kept_of; trivial; try discriminate. intros n v [].
  - subst o. reflexivity.
  - subst o. unfold meta_ok, empty_obj. cbn [o_meta]. apply grain_meta_ok; [keys|constructor].
  - intros x X. subst o. discriminate X.
  - exact NN.
  - subst o. apply (can_compare_of psnr opts (0, 1) (0, 1) $"empty" now k); trivial; [eexists; reflexivity|intros X; vm_compute in X; discriminate X|]. apply type_empty. apply (can_data_of psnr false 1 opts _ None O GD). intros b X. discriminate X.
Qed.
Lemma value_ok v : value_drawn v -> pv_ok v.
Proof.
  unfold value_drawn, event_value. cbn [can_draw]. intros [H|[H|[H|H]]].
  - destruct v; try (destruct H; fail). constructor.
  - destruct v; try (destruct H; fail). constructor.
  - destruct H as (n & d & _ & ->). apply frac_dict_ok.
  - destruct v; try (destruct H; fail). constructor.
Qed.
Lemma entry_pv_ok x : entry_drawn x -> pv_ok (entry_of x).
Proof.
  intros H. destruct (entry_of_drawn x H) as (d & path & pre & post & -> & -> & _ & _ & _ & P & Q). apply dict_ok_of; [apply three_keys|]. cbn [map snd].
  constructor; [constructor|]. constructor; [exact (value_ok _ P)|]. constructor; [exact (value_ok _ Q)|constructor].
Qed.
Lemma event_comparable psnr opts major now o : is_event now o -> plain_options opts -> fits_version major o -> comparable psnr opts major o /\ no_nan o.
Proof.
  intros (k & kind & topic & xs & K & T1 & T2 & F & E0) [O _] V. destruct rats as (R1 & _ & R3 & _). pose proof (event_good now k kind topic xs T1 T2 F) as G. rewrite <- E0 in G.
  assert (OC : o_class o = KEvent) by (subst o; reflexivity). assert (LO : labels o = Ok []) by (subst o; apply no_labels).
  destruct (data_text o (payload_of kind topic xs) OC (proj1 G) (proj1 (proj2 G))) as (b & B1 & _ & B2).
  assert (EE : event_entries o = Ok (map entry_of xs)) by (subst o; kw_cases; reflexivity).
  assert (NN : no_nan o).
  { intros f x X. exfalso. assert (Y : getattr o $"cog_audio_format" = Err EAttr) by (subst o; reflexivity). rewrite Y in X. discriminate X. }
  split; [|exact NN]. split; [|split; [|split; [|split; [|split]]]].
  - destruct V as [V1 V]. constructor.
    + exact V.
    + intros ls E. rewrite LO in E. apply Ok_eq in E. subst ls. constructor.
    + intros n v I. rewrite OC in I. destruct I.
    + intros X. rewrite OC in X. discriminate X.
    + intros X. rewrite OC in X. discriminate X.
    + rewrite OC. exact I.
    + intros _ p SH. destruct (EventProofs.shows_entries _ _ SH) as (l & LE & FF). rewrite EE in LE. apply Ok_eq in LE.
      subst l. clear - F FF. revert FF. generalize (p_entries p). induction F as [|x xs H F IH]; intros es FF; inversion FF as [|? e ? es' H1 H2]; subst; constructor.
      * intros key KN. destruct H1 as (d & D1 & _ & D2). rewrite <- D2. pose proof (proj2 (proj2 (entry_fun_json x H)) key KN) as Z. unfold entry_fun in Z. rewrite D1 in Z. exact Z.
      * exact (IH es' H2).
  - subst o. apply kw_own. discriminate.
  - subst o. apply kw_meta_ok; [discriminate|]. unfold event_part. apply dict_ok_of; [keys|]. cbn [map snd]. constructor; [constructor|]. constructor; [constructor|]. constructor; [|constructor].
    apply ok_list, Forall_map. exact (Forall_impl _ entry_pv_ok F).
  - intros x X. subst o. discriminate X.
  - exact NN.
  - assert (LN : readable o $"length").
    { exists (PInt (zlen b)). assert (Y : getattr o $"length" = get_length o) by (subst o; reflexivity). rewrite Y. unfold get_length. rewrite B1. reflexivity. }
    apply (can_compare_of psnr opts (25, 1) (1, 25) $"event" now k); trivial; [subst o; apply (kw_common KEvent); discriminate|intros _|].
    { intros la lb i d e key A B D D' KK. assert (LL : la = lb) by congruence. subst lb. assert (DE : d = e) by congruence. subst e. clear B D'. unfold entries in A. rewrite EE in A. cbn [rbind] in A.
      assert (KD : map fst d = [$"path"; $"pre"; $"post"]).
      { clear - F A D. revert la i A D. induction F as [|x xs H F IH]; intros la i A D; cbn [map map_res] in A; [apply Ok_eq in A; subst la; destruct i; discriminate D|].
        destruct (entry_of_drawn x H) as (e & ? & ? & ? & E & E' & _). rewrite E in A. cbn [as_dict rbind] in A. apply rbind_ok in A as (r & R & A). apply Ok_eq in A. subst la.
        destruct i as [|i]; cbn [nth_error] in D; [assert (e = d) by congruence; subst; reflexivity|exact (IH r i R D)]. }
      rewrite KD in KK. cbn [In app] in KK. repeat destruct KK as [<-|KK]; try (destruct KK; fail); apply spelled_plain, plain_text; reflexivity. }
    assert (D : exists d, map_res as_dict (map entry_of xs) = Ok d).
    { clear - F. induction F as [|x xs H F (d & IH)]; [exists []; reflexivity|]. destruct (entry_of_drawn x H) as (e & _ & _ & _ & E & _). exists (e :: d). cbn [map map_res]. rewrite E, IH. reflexivity. }
    destruct D as (d & D). apply (type_event psnr opts o d); [subst o; kw_cases; eexists; reflexivity|subst o; kw_cases; eexists; reflexivity|]. rewrite EE. exact D.
Qed.
