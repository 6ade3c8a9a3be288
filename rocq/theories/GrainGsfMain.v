(** A grain object that the encoder can read, and the object made of what comes back. *)
From Coq Require Import String Lia ZifyBool ZifyNat.
From Verif Require Import Base BaseProofs GsfPrim GsfPrimProofs GsfDecode CogEnums GsfEncode GsfSpec GsfFileSpec PyValue PyValueProofs Json JsonProofs GrainObj BuildKw EventProofs GrainGsf GrainGsfSpec GrainGsfMade GrainGsfRead.
Local Open Scope list_scope.

Definition arg_of (b : bytes) : darg := match b with [] => ANone | _ => ABytes b end.

Lemma src_same o : getattr o $"src_id" = getattr o $"source_id".
Proof. unfold getattr. destruct (o_class o); reflexivity. Qed.
Lemma length_same o : getattr o $"length" = get_length o.
Proof. unfold getattr. destruct (o_class o); reflexivity. Qed.

(** What all classes share. *)
Record survives_common (major now : Z) (o o' : gobj) : Prop := {
  sc_same : forall n, In n [$"grain_type"; $"source_id"; $"src_id"; $"flow_id"; $"rate"; $"duration"] -> getattr o' n = getattr o n /\ exists v, getattr o n = Ok v;
  sc_times : forall n, In n [$"origin_timestamp"; $"sync_timestamp"] ->
    exists t, getattr o n = Ok (PTime t) /\ getattr o' n = Ok (PTime (if major =? 7 then Z.abs t else t));
  sc_creation : getattr o' $"creation_timestamp" = Ok (PTime now);
  sc_labels : exists l l', labels o = Ok l /\ labels o' = Ok l' /\ Forall2 label_after l l' }.
Lemma common_survives major now o o' g : of_own_type o -> o_class o' = o_class o -> common_read o g -> grain_ok g -> common_made now (meta_of major g) o' -> survives_common major now o o'.
Proof.
  intros T C R (_ & _ & _ & _ & Kr & _ & Kd & _ & Kt & _) M. constructor.
  - intros n H. repeat (destruct H as [<-|H]); [..|destruct H].
    + rewrite (cm_type _ _ _ M), T, C. split; [reflexivity|]. eexists. reflexivity.
    + destruct (cr_source _ _ R) as (u & A & B & E). rewrite (cm_source _ _ _ M), A. cbn [m_src meta_of]. rewrite E, uuid_there by exact B. split; [reflexivity|]. eexists. reflexivity.
    + destruct (cr_source _ _ R) as (u & A & B & E). rewrite (cm_src _ _ _ M), src_same, A. cbn [m_src meta_of]. rewrite E, uuid_there by exact B. split; [reflexivity|]. eexists. reflexivity.
    + destruct (cr_flow _ _ R) as (u & A & B & E). rewrite (cm_flow _ _ _ M), A. cbn [m_flow meta_of]. rewrite E, uuid_there by exact B. split; [reflexivity|]. eexists. reflexivity.
    + rewrite (cm_rate _ _ _ M Kr), (cr_rate _ _ R). split; [reflexivity|]. eexists. reflexivity.
    + rewrite (cm_duration _ _ _ M Kd), (cr_duration _ _ R). split; [reflexivity|]. eexists. reflexivity.
  - intros n [<-|[<-|[]]].
    + exists (g_origin g). split; [exact (cr_origin _ _ R)|]. exact (cm_origin _ _ _ M).
    + exists (g_sync g). split; [exact (cr_sync _ _ R)|]. exact (cm_sync _ _ _ M).
  - exact (cm_creation _ _ _ M).
  - destruct (cr_labels _ _ R) as (l & A & F). exists l, (map til_dict (map norm_til (g_tils g))). split; [exact A|]. split; [|exact (labels_kept _ _ F Kt)].
    rewrite (cm_labels _ _ _ M). cbn [m_tils meta_of]. destruct (g_tils g); reflexivity.
Qed.

(** The payload. *)
Lemma data_survives o o' g (k : bool) : o_class o <> KEvent -> o_class o' = o_class o -> common_read o g -> grain_ok g ->
  o_data o' = (if k then data_of else data_or_empty) (arg_of (opt_bytes (g_data g))) -> o_wait o' = None ->
  k = match o_class o with KGrain => true | _ => false end ->
  exists d, get_data o = Ok d /\
    get_data o' = Ok (match d, o_class o with None, KGrain | Some [], KGrain => None | None, _ => Some [] | Some b, _ => Some b end) /\
    getattr o' $"length" = getattr o $"length".
Proof.
  intros N C R K D W Ek. destruct K as (_ & _ & _ & _ & _ & _ & _ & _ & _ & _ & _ & L & _).
  exists (g_data g). split; [exact (cr_data _ _ R)|].
  assert (G : get_data o' = Ok (match g_data g, o_class o with None, KGrain | Some [], KGrain => None | None, _ => Some [] | Some b, _ => Some b end)).
  { unfold get_data. rewrite C. subst k. destruct (o_class o); try (destruct N; reflexivity); rewrite D; destruct (g_data g) as [[|x b]|]; reflexivity. }
  split; [exact G|]. rewrite !length_same.
  pose proof (cr_length _ _ R) as X. apply attr_ok in X as (v & A & B). rewrite length_same in A. rewrite A. unfold get_length in A. rewrite (cr_data _ _ R) in A. cbn [rbind] in A. apply Ok_eq in A.
  unfold get_length. rewrite G, W. cbn [rbind]. f_equal. rewrite <- A in B. cbn [to_int] in B. apply Ok_eq in B. rewrite <- A, B, L.
  f_equal. destruct (g_data g) as [[|x b]|]; destruct (o_class o); reflexivity.
Qed.

Lemma object_survives major now o g : of_own_type o -> read_grain o = Ok g -> grain_ok g -> o_class o <> KEvent ->
  exists o', GrainFactory now (meta_dict (meta_of major g)) (arg_of (opt_bytes (g_data g))) = Ok o' /\ survives major now o o'.
Proof.
  intros T H K N. pose proof (grain_read _ _ H) as R. pose proof (cr_body _ _ R) as B. rewrite (own_body o T) in B.
  pose proof K as (_ & _ & _ & _ & _ & _ & _ & _ & _ & _ & Kb & _). set (a := arg_of (opt_bytes (g_data g))).
  assert (W : wait_of a = None) by (unfold a, arg_of; destruct (opt_bytes (g_data g)); reflexivity).
  assert (KK : forall c v d, c = o_class o -> c <> KEvent -> d = (if match o_class o with KGrain => true | _ => false end then data_of else data_or_empty) a ->
    survives_common major now o (made_obj c now (meta_of major g) v d (wait_of a)) /\
    exists d', get_data o = Ok d' /\
      get_data (made_obj c now (meta_of major g) v d (wait_of a)) = Ok (match d', o_class o with None, KGrain | Some [], KGrain => None | None, _ => Some [] | Some b, _ => Some b end) /\
      getattr (made_obj c now (meta_of major g) v d (wait_of a)) $"length" = getattr o $"length").
  { intros c v d E E' D. split.
    - apply (common_survives _ _ _ _ g); auto. apply made_common.
    - apply (data_survives o (made_obj c now (meta_of major g) v d (wait_of a)) g _ N E R K D W). reflexivity. }
  destruct (o_class o) eqn:C.
  - (* empty *)
    apply Ok_eq in B. destruct g as [s f t y r d ls bd n x]. cbn [g_body] in B. subst bd.
    exists (made_obj KGrain now (meta_of major (mkGrain s f t y r d ls BEmpty n x)) (PDict []) (data_of a) (wait_of a)).
    split; [exact (made_empty _ _ _ _ _ _ _ _ _)|].
    destruct (KK KGrain (PDict []) (data_of a) eq_refl N eq_refl) as [[S1 S2 S3 S4] D].
    constructor; try rewrite C; cbn [enum_names number_names app]; try discriminate; auto; intros n' [].
  - (* video *)
    apply rbind_ok in B as (v & B & E). apply Ok_eq in E. pose proof (video_read_ok o v C B) as V. destruct g as [s f t y r d ls bd n x]. cbn [g_body] in E. subst bd.
    destruct Kb as (Kf & Kl & _ & _ & _ & Ks & Kp & _). 
    set (o' := made_obj KVideo now (meta_of major (mkGrain s f t y r d ls (BVideo v) n x)) (PDict (video_dict (norm_vmeta v))) (data_or_empty a) (wait_of a)).
    exists o'. split; [exact (made_video _ _ _ _ _ _ _ _ _ _)|].
    destruct (KK KVideo (PDict (video_dict (norm_vmeta v))) (data_or_empty a) eq_refl N eq_refl) as [[S1 S2 S3 S4] D]. fold o' in S1, S2, S3, S4, D.
    assert (Rs : forall q, ratio_ok q -> ratio_lowest (norm_ratio q)) by (intros [q|]; cbn [ratio_ok norm_ratio]; [|auto]; intros [Q _]; destruct (fst q =? 0); [exact I|exact Q]).
    assert (M : video_made (norm_vmeta v) o').
    { apply made_frame; cbn [norm_vmeta v_format v_layout v_sar v_par]; auto. }
    assert (Rt : forall q, ratio_or_none (norm_ratio q) = match ratio_or_none q with PFrac 0 _ => PNone | _ => ratio_or_none q end).
    { intros [[q1 q2]|]; [|reflexivity]. cbn [norm_ratio fst]. destruct q1; reflexivity. }
    constructor; try rewrite C; try discriminate; auto.
    + intros m H1. apply in_app_or in H1 as [H1|H1]; [exact (S1 m H1)|]. cbn [enum_names] in H1.
      repeat (destruct H1 as [<-|H1]); [..|destruct H1].
      * rewrite (vm_format _ _ M _ (or_introl eq_refl)), (vr_format _ _ V _ (or_introl eq_refl)). split; [reflexivity|eexists; reflexivity].
      * rewrite (vm_format _ _ M _ (or_intror (or_introl eq_refl))), (vr_format _ _ V _ (or_intror (or_introl eq_refl))). split; [reflexivity|eexists; reflexivity].
      * rewrite (vm_layout _ _ M _ (or_introl eq_refl)), (vr_layout _ _ V _ (or_introl eq_refl)). split; [reflexivity|eexists; reflexivity].
      * rewrite (vm_layout _ _ M _ (or_intror (or_introl eq_refl))), (vr_layout _ _ V _ (or_intror (or_introl eq_refl))). split; [reflexivity|eexists; reflexivity].
    + cbn [number_names]. intros m H1. repeat (destruct H1 as [<-|H1]); [..|destruct H1].
      * destruct (vr_width _ _ V) as (w & A1 & A2). exists w, (v_width v). split; [exact A1|]. split; [exact A2|]. exact (vm_width _ _ M).
      * destruct (vr_height _ _ V) as (w & A1 & A2). exists w, (v_height v). split; [exact A1|]. split; [exact A2|]. exact (vm_height _ _ M).
      * destruct (vr_ext _ _ V) as (w & A1 & A2). exists w, (v_ext v). split; [exact A1|]. split; [exact A2|]. exact (vm_ext _ _ M).
    + intros _ m [<-|[<-|[]]].
      * exists (ratio_or_none (v_sar v)). split; [exact (vr_sar _ _ V)|]. rewrite (vm_sar _ _ M). f_equal. exact (Rt _).
      * exists (ratio_or_none (v_par v)). split; [exact (vr_par _ _ V)|]. rewrite (vm_par _ _ M). f_equal. exact (Rt _).
    + intros _. destruct (vr_comps _ _ V) as (l & A1 & A2). exists l, (map comp_pv (norm_comps 0 (v_comps v))). split; [exact A1|]. split; [exact (vm_comps _ _ M)|]. exact (comps_kept _ _ A2 0).
  - (* coded video *)
    apply rbind_ok in B as (c & B & E). apply Ok_eq in E. pose proof (coded_read_ok o c C B) as V. destruct g as [s f t y r d ls bd n x]. cbn [g_body] in E. subst bd.
    destruct Kb as (Kf & Kl & _).
    set (part := PDict (coded_dict (norm_cmeta major c) ++ [($"length", PInt 0)])).
    set (o' := made_obj KCodedVideo now (meta_of major (mkGrain s f t y r d ls (BCoded c) n x)) part (data_or_empty a) (wait_of a)).
    exists o'. split; [exact (made_coded _ _ _ _ _ _ _ _ _ _)|].
    destruct (KK KCodedVideo part (data_or_empty a) eq_refl N eq_refl) as [[S1 S2 S3 S4] D]. fold o' in S1, S2, S3, S4, D.
    assert (M : coded_made (norm_cmeta major c) o') by (apply made_coded_frame; cbn [norm_cmeta c_format c_layout]; assumption).
    assert (Eu : units (norm_cmeta major c) = units c) by (unfold norm_cmeta; unfold units at 1; cbn [c_units]; destruct (units c); reflexivity).
    constructor; try rewrite C; try discriminate; auto.
    + intros m H1. apply in_app_or in H1 as [H1|H1]; [exact (S1 m H1)|]. cbn [enum_names] in H1.
      repeat (destruct H1 as [<-|H1]); [..|destruct H1].
      * rewrite (dm_format _ _ M _ (or_introl eq_refl)), (dr_format _ _ V _ (or_introl eq_refl)). split; [reflexivity|eexists; reflexivity].
      * rewrite (dm_format _ _ M _ (or_intror (or_introl eq_refl))), (dr_format _ _ V _ (or_intror (or_introl eq_refl))). split; [reflexivity|eexists; reflexivity].
      * rewrite (dm_layout _ _ M _ (or_introl eq_refl)), (dr_layout _ _ V _ (or_introl eq_refl)). split; [reflexivity|eexists; reflexivity].
      * rewrite (dm_layout _ _ M _ (or_intror (or_introl eq_refl))), (dr_layout _ _ V _ (or_intror (or_introl eq_refl))). split; [reflexivity|eexists; reflexivity].
    + cbn [number_names]. intros m H1. repeat (destruct H1 as [<-|H1]); [..|destruct H1].
      * destruct (dr_ow _ _ V) as (w & A1 & A2). exists w, (c_ow c). split; [exact A1|]. split; [exact A2|]. exact (dm_ow _ _ M).
      * destruct (dr_oh _ _ V) as (w & A1 & A2). exists w, (c_oh c). split; [exact A1|]. split; [exact A2|]. exact (dm_oh _ _ M).
      * destruct (dr_cw _ _ V) as (w & A1 & A2). exists w, (c_cw c). split; [exact A1|]. split; [exact A2|]. exact (dm_cw _ _ M).
      * destruct (dr_ch _ _ V) as (w & A1 & A2). exists w, (c_ch c). split; [exact A1|]. split; [exact A2|]. exact (dm_ch _ _ M).
    + intros _. destruct (dr_key _ _ V) as (w & A1 & A2). exists w, (or_none (option_map PBool (norm_key major (c_key c)))). split; [exact A1|]. split; [exact (dm_key _ _ M)|].
      unfold norm_key. destruct (c_key c) as [b|].
      * destruct A2 as [A2 A3]. unfold key_after. destruct w; try (destruct A2; reflexivity); exists b; (split; [destruct (major <? 9); reflexivity|exact A3]).
      * subst w. cbn [key_after]. destruct (major <? 9); reflexivity.
    + intros _. destruct (dr_temporal _ _ V) as (w & A1 & A2). exists w, (or_none (option_map PInt (norm_temporal major (c_temporal c)))). split; [exact A1|]. split; [exact (dm_temporal _ _ M)|].
      unfold norm_temporal. destruct (c_temporal c) as [z|].
      * destruct A2 as [A2 A3]. assert (X : or_none (option_map PInt (if major <? 9 then Some z else if z =? 2147483647 then None else Some z)) = (if (9 <=? major) && (z =? 2147483647) then PNone else PInt z)).
        { rewrite Z.ltb_antisym. destruct (9 <=? major); cbn [negb andb]; [|reflexivity]. destruct (z =? 2147483647); reflexivity. }
        rewrite X. unfold temporal_after. destruct w; try (destruct A2; reflexivity); exists z; auto.
      * subst w. cbn [temporal_after]. destruct (major <? 9); reflexivity.
    + intros _. destruct (dr_units _ _ V) as (l & A1 & A2). exists l, (units c). split; [exact A1|]. split; [|exact A2]. rewrite (dm_units _ _ M), Eu. reflexivity.
    + intros _ m H1. exact (dm_ratios _ _ M m H1).
  - (* audio *)
    apply rbind_ok in B as (c & B & E). apply Ok_eq in E. pose proof (audio_read_ok o c C B) as V. destruct g as [s f t y r d ls bd n x]. cbn [g_body] in E. subst bd.
    destruct Kb as (Kf & _). set (o' := made_obj KAudio now (meta_of major (mkGrain s f t y r d ls (BAudio c) n x)) (PDict (audio_dict c)) (data_or_empty a) (wait_of a)).
    exists o'. split; [exact (made_audio _ _ _ _ _ _ _ _ _ _)|].
    destruct (KK KAudio (PDict (audio_dict c)) (data_or_empty a) eq_refl N eq_refl) as [[S1 S2 S3 S4] D]. fold o' in S1, S2, S3, S4, D.
    assert (M : audio_made c o') by (apply made_sound; assumption).
    constructor; try rewrite C; try discriminate; auto.
    + intros m H1. apply in_app_or in H1 as [H1|H1]; [exact (S1 m H1)|]. cbn [enum_names] in H1.
      rewrite (am_format _ _ M _ H1), (ar_format _ _ V _ H1). split; [reflexivity|eexists; reflexivity].
    + cbn [number_names]. intros m H1. repeat (destruct H1 as [<-|H1]); [..|destruct H1].
      * destruct (ar_samples _ _ V) as (w & A1 & A2). exists w, (a_samples c). split; [exact A1|]. split; [exact A2|]. exact (am_samples _ _ M).
      * destruct (ar_channels _ _ V) as (w & A1 & A2). exists w, (a_channels c). split; [exact A1|]. split; [exact A2|]. exact (am_channels _ _ M).
      * destruct (ar_rate _ _ V) as (w & A1 & A2). exists w, (a_rate c). split; [exact A1|]. split; [exact A2|]. exact (am_rate _ _ M).
  - (* coded audio *)
    apply rbind_ok in B as (c & B & E). apply Ok_eq in E. pose proof (coded_audio_read_ok o c C B) as V. destruct g as [s f t y r d ls bd n x]. cbn [g_body] in E. subst bd.
    destruct Kb as (Kf & _). set (o' := made_obj KCodedAudio now (meta_of major (mkGrain s f t y r d ls (BCAudio c) n x)) (PDict (coded_audio_dict c)) (data_or_empty a) (wait_of a)).
    exists o'. split; [exact (made_coded_audio _ _ _ _ _ _ _ _ _ _)|].
    destruct (KK KCodedAudio (PDict (coded_audio_dict c)) (data_or_empty a) eq_refl N eq_refl) as [[S1 S2 S3 S4] D]. fold o' in S1, S2, S3, S4, D.
    assert (M : coded_audio_made c o') by (apply made_coded_sound; assumption).
    constructor; try rewrite C; try discriminate; auto.
    + intros m H1. apply in_app_or in H1 as [H1|H1]; [exact (S1 m H1)|]. cbn [enum_names] in H1.
      rewrite (bm_format _ _ M _ H1), (br_format _ _ V _ H1). split; [reflexivity|eexists; reflexivity].
    + cbn [number_names]. intros m H1. repeat (destruct H1 as [<-|H1]); [..|destruct H1].
      * destruct (br_samples _ _ V) as (w & A1 & A2). exists w, (ca_samples c). split; [exact A1|]. split; [exact A2|]. exact (bm_samples _ _ M).
      * destruct (br_channels _ _ V) as (w & A1 & A2). exists w, (ca_channels c). split; [exact A1|]. split; [exact A2|]. exact (bm_channels _ _ M).
      * destruct (br_rate _ _ V) as (w & A1 & A2). exists w, (ca_rate c). split; [exact A1|]. split; [exact A2|]. exact (bm_rate _ _ M).
      * destruct (br_priming _ _ V) as (w & A1 & A2). exists w, (ca_priming c). split; [exact A1|]. split; [exact A2|]. exact (bm_priming _ _ M).
      * destruct (br_remainder _ _ V) as (w & A1 & A2). exists w, (ca_remainder c). split; [exact A1|]. split; [exact A2|]. exact (bm_remainder _ _ M).
  - destruct N. reflexivity.
Qed.
