(** The object that comes back, written and read again. *)
From Coq Require Import String Lia ZifyBool ZifyNat.
From Verif Require Import Base BaseProofs GsfPrim GsfPrimProofs GsfDecode CogEnums GsfEncode GsfSpec GsfFileSpec PyValue PyValueProofs Json JsonProofs GrainObj BuildKw EventProofs GrainGsf GrainGsfSpec GrainGsfMade GrainGsfRead GrainGsfMain GrainGsfEvent.
Local Open Scope list_scope.

Definition no_offset (c : comp) : comp := mkComp (co_width c) (co_height c) (co_stride c) 0 (co_length c).
Definition settled_video (v : vmeta) : vmeta :=
  mkV (v_format v) (v_layout v) (v_width v) (v_height v) (v_ext v) (norm_ratio (v_sar v)) (norm_ratio (v_par v)) (map no_offset (v_comps v)).
Definition settled_coded (major : Z) (c : cmeta) : cmeta :=
  mkC (c_format c) (c_layout c) (c_ow c) (c_oh c) (c_cw c) (c_ch c) (norm_key major (c_key c)) (norm_temporal major (c_temporal c)) (Some (units c)).
Definition settled_body (major : Z) (b : gbody) : gbody :=
  match b with BVideo v => BVideo (settled_video v) | BCoded c => BCoded (settled_coded major c) | _ => b end.
Definition settled (major : Z) (g : grain) (d : option bytes) : grain :=
  mkGrain (g_src g) (g_flow g) (norm_ts major (g_origin g)) (norm_ts major (g_sync g)) (g_rate g) (g_dur g) (map norm_til (g_tils g))
    (settled_body major (g_body g)) (zlen (opt_bytes d)) d.

(** ** It is what the first one was, as far as the file goes. *)
Lemma norm_ts_twice major t : norm_ts major (norm_ts major t) = norm_ts major t.
Proof. unfold norm_ts. destruct (major =? 7); [apply Z.abs_involutive || (rewrite Z.abs_eq; [reflexivity|apply Z.abs_nonneg])|reflexivity]. Qed.
Lemma norm_til_twice t : til_ok t -> norm_til (norm_til t) = norm_til t.
Proof.
  intros (_ & _ & _ & [D _]). unfold norm_til. cbn [tl_num tl_den tl_tag tl_count tl_drop]. rewrite rat_norm_id by (apply rat_norm_ok; exact D). reflexivity.
Qed.
Lemma norm_tils_twice l : Forall til_ok l -> map norm_til (map norm_til l) = map norm_til l.
Proof. induction 1 as [|t l H _ IH]; cbn [map]; [reflexivity|]. rewrite norm_til_twice by exact H. rewrite IH. reflexivity. Qed.
Lemma norm_ratio_twice r : norm_ratio (norm_ratio r) = norm_ratio r.
Proof. destruct r as [x|]; cbn [norm_ratio]; [|reflexivity]. destruct (fst x =? 0) eqn:E; cbn [norm_ratio]; [reflexivity|]. rewrite E. reflexivity. Qed.
Lemma norm_comps_zero l : forall start, norm_comps start (map no_offset l) = norm_comps start l.
Proof. induction l as [|c l IH]; intros start; cbn [map norm_comps]; [reflexivity|]. cbn [no_offset co_width co_height co_stride co_length]. rewrite IH. reflexivity. Qed.
Lemma norm_key_twice major k : norm_key major (norm_key major k) = norm_key major k.
Proof. unfold norm_key. destruct (major <? 9); reflexivity. Qed.
Lemma norm_temporal_twice major t : norm_temporal major (norm_temporal major t) = norm_temporal major t.
Proof. unfold norm_temporal. destruct (major <? 9); [reflexivity|]. destruct t as [z|]; [|reflexivity]. destruct (z =? 2147483647) eqn:E; [reflexivity|]. rewrite E. reflexivity. Qed.
Lemma settled_meta major g d : grain_ok g -> meta_of major (settled major g d) = meta_of major g.
Proof.
  intros (_ & _ & _ & _ & _ & _ & _ & _ & Kt & _). unfold meta_of, settled. cbn [g_src g_flow g_origin g_sync g_rate g_dur g_tils g_body].
  rewrite !norm_ts_twice. replace (norm_tils (map norm_til (g_tils g))) with (norm_tils (g_tils g)).
  2: { unfold norm_tils. pose proof (norm_tils_twice _ Kt) as X. destruct (g_tils g); cbn [map] in *; [reflexivity|]. rewrite X. reflexivity. }
  f_equal; destruct (g_body g); cbn [settled_body]; try reflexivity.
  - unfold norm_vmeta, settled_video. cbn [v_format v_layout v_width v_height v_ext v_sar v_par v_comps]. rewrite !norm_ratio_twice, norm_comps_zero. reflexivity.
  - unfold norm_cmeta, settled_coded. cbn [c_format c_layout c_ow c_oh c_cw c_ch c_key c_temporal]. rewrite norm_key_twice, norm_temporal_twice.
    change (units (mkC _ _ _ _ _ _ _ _ (Some (units c)))) with (units c). reflexivity.
Qed.

Lemma rat_norm_bound n m : u32 n -> u32 m -> u32 (fst (rat_norm n m)) /\ u32 (snd (rat_norm n m)).
Proof.
  unfold u32, rat_norm. intros N M. destruct ((n =? 0) || (m =? 0)) eqn:E; [cbn [fst snd rat_zero]; lia|].
  unfold mk_rat. cbn [fst snd]. assert (P : 0 < Z.gcd n m) by (pose proof (Z.gcd_nonneg n m); pose proof (Z.gcd_eq_0_l n m); lia).
  split; split; try (apply Z.div_pos; lia); (eapply Z.le_lt_trans; [apply Z.div_le_upper_bound with (q := _); [exact P|]|]).
  - apply Z.le_trans with (1 * n); [lia|]. apply Z.mul_le_mono_nonneg_r; lia.
  - lia.
  - apply Z.le_trans with (1 * m); [lia|]. apply Z.mul_le_mono_nonneg_r; lia.
  - lia.
Qed.
Lemma til_settled t : til_ok t -> til_ok (norm_til t).
Proof. intros (A & B & C & D). destruct (rat_norm_bound _ _ C D) as [E F]. repeat (split; [assumption|]). exact F. Qed.
Lemma ts_settled major t : ts_fits t -> ts_fits (norm_ts major t).
Proof. unfold norm_ts. destruct (major =? 7); [|auto]. unfold ts_fits. rewrite Z.abs_involutive. auto. Qed.
Lemma zlen_map {A B} (f : A -> B) l : zlen (map f l) = zlen l.
Proof. unfold zlen. rewrite map_length. reflexivity. Qed.
Lemma settled_ok major g d : grain_ok g -> bytes_ok (opt_bytes d) -> grain_ok (settled major g d).
Proof.
  intros (K1 & K2 & K3 & K4 & K5 & K6 & K7 & K8 & K9 & K10 & K11 & _) B. unfold grain_ok, settled. cbn [g_src g_flow g_origin g_sync g_rate g_dur g_tils g_body g_len g_data].
  split; [exact K1|]. split; [exact K2|]. split; [apply ts_settled; exact K3|]. split; [apply ts_settled; exact K4|]. split; [exact K5|]. split; [exact K6|]. split; [exact K7|]. split; [exact K8|].
  split; [clear - K9; induction K9; cbn [map]; constructor; auto using til_settled|]. split; [rewrite zlen_map; exact K10|]. split; [|split; [reflexivity|exact B]].
  assert (Rs : forall q, ratio_ok q -> ratio_ok (norm_ratio q)) by (intros [q|]; cbn [ratio_ok norm_ratio]; [|auto]; intros Q; destruct (fst q =? 0); [exact I|exact Q]).
  destruct (g_body g) as [|v|c|a|a|]; cbn [settled_body gbody_ok] in *; try exact K11.
  - destruct K11 as (A1 & A2 & A3 & A4 & A5 & A6 & A7 & A8 & A9). unfold vmeta_ok, settled_video. cbn [v_format v_layout v_width v_height v_ext v_sar v_par v_comps].
    repeat (split; [solve [auto]|]). split; [|rewrite zlen_map; exact A9]. clear - A8. induction A8 as [|x l X]; cbn [map]; constructor; [exact X|assumption].
  - destruct K11 as (A1 & A2 & A3 & A4 & A5 & A6 & A7 & A8 & A9). unfold cmeta_ok, settled_coded. cbn [c_format c_layout c_ow c_oh c_cw c_ch c_temporal].
    repeat (split; [solve [auto]|]). split; [|split; assumption]. unfold norm_temporal. destruct (major <? 9); [|destruct (c_temporal c) as [z|]; [|exact I]; destruct (z =? 2147483647); [exact I|exact A7]].
    destruct (c_temporal c); [exact A7|]. unfold i32. lia.
Qed.

(** ** Reading what was made. *)
Lemma attr_of {A} (f : pv -> res A) n o v : getattr o n = Ok v -> attr f n o = f v.
Proof. unfold attr. intros ->. reflexivity. Qed.
Lemma made_comps l : map_res read_comp (map comp_pv l) = Ok (map no_offset l).
Proof. induction l as [|c l IH]; [reflexivity|]. cbn [map map_res]. rewrite IH. reflexivity. Qed.
Lemma comps_zero start l : map no_offset (norm_comps start l) = map no_offset l.
Proof. revert start. induction l as [|c l IH]; intros start; cbn [norm_comps map]; [reflexivity|]. rewrite IH. reflexivity. Qed.
Lemma made_units l : map_res as_count (map PInt l) = Ok l.
Proof. induction l as [|c l IH]; [reflexivity|]. cbn [map map_res as_count rbind]. rewrite IH. reflexivity. Qed.
Lemma ratio_back r : as_ratio (ratio_or_none r) = Ok r.
Proof. destruct r as [[n d]|]; reflexivity. Qed.
Lemma read_made major now g o d : grain_ok g -> common_made now (meta_of major g) o -> read_body o = Ok (settled_body major (g_body g)) -> get_data o = Ok d -> o_wait o = None ->
  read_grain o = Ok (settled major g d).
Proof.
  intros (K1 & K2 & _ & _ & K5 & _ & K7 & _ & _) M B D W. unfold read_grain.
  rewrite (attr_of _ _ _ _ (cm_source _ _ _ M)), (attr_of _ _ _ _ (cm_flow _ _ _ M)), (attr_of _ _ _ _ (cm_origin _ _ _ M)), (attr_of _ _ _ _ (cm_sync _ _ _ M)),
    (attr_of _ _ _ _ (cm_rate _ _ _ M K5)), (attr_of _ _ _ _ (cm_duration _ _ _ M K7)), (cm_labels _ _ _ M), B, D.
  destruct (uuid_back _ K1) as [U1 V1], (uuid_back _ K2) as [U2 V2]. cbn [meta_of m_src m_flow m_origin m_sync m_rate m_dur m_tils as_id as_time frac_pv as_frac]. rewrite V1, V2, U1, U2. cbn [rbind].
  rewrite read_tils. cbn [rbind]. unfold attr at 1. rewrite length_same. unfold get_length. rewrite D, W. cbn [rbind to_int].
  unfold settled. f_equal. f_equal; [destruct (g_rate g); reflexivity|destruct (g_dur g); reflexivity|destruct (g_tils g); reflexivity|destruct d; reflexivity].
Qed.
Lemma read_made_video v o : o_class o = KVideo -> video_made (norm_vmeta v) o -> read_video o = Ok (settled_video v).
Proof.
  intros C M. unfold read_video, components. rewrite C.
  rewrite (attr_of _ _ _ _ (vm_format _ _ M _ (or_intror (or_introl eq_refl)))), (attr_of _ _ _ _ (vm_layout _ _ M _ (or_intror (or_introl eq_refl)))), (attr_of _ _ _ _ (vm_width _ _ M)),
    (attr_of _ _ _ _ (vm_height _ _ M)), (attr_of _ _ _ _ (vm_ext _ _ M)), (attr_of _ _ _ _ (vm_sar _ _ M)), (attr_of _ _ _ _ (vm_par _ _ M)), (vm_comps _ _ M), !ratio_back.
  cbn [norm_vmeta v_format v_layout v_width v_height v_ext v_sar v_par v_comps to_int rbind as_list]. rewrite made_comps, comps_zero. reflexivity.
Qed.
Lemma read_made_coded major c o : o_class o = KCodedVideo -> coded_made (norm_cmeta major c) o -> read_coded o = Ok (settled_coded major c).
Proof.
  intros C M. unfold read_coded, unit_offsets. rewrite C.
  rewrite (attr_of _ _ _ _ (dm_format _ _ M _ (or_intror (or_introl eq_refl)))), (attr_of _ _ _ _ (dm_layout _ _ M _ (or_intror (or_introl eq_refl)))), (attr_of _ _ _ _ (dm_ow _ _ M)),
    (attr_of _ _ _ _ (dm_oh _ _ M)), (attr_of _ _ _ _ (dm_cw _ _ M)), (attr_of _ _ _ _ (dm_ch _ _ M)), (attr_of _ _ _ _ (dm_key _ _ M)), (attr_of _ _ _ _ (dm_temporal _ _ M)), (dm_units _ _ M).
  assert (Eu : units (norm_cmeta major c) = units c) by (unfold norm_cmeta; unfold units at 1; cbn [c_units]; destruct (units c); reflexivity). rewrite Eu.
  cbn [norm_cmeta c_format c_layout c_ow c_oh c_cw c_ch c_key c_temporal to_int rbind].
  replace (as_flag (or_none (option_map PBool (norm_key major (c_key c))))) with (Ok (norm_key major (c_key c))) by (destruct (norm_key major (c_key c)); reflexivity).
  replace (as_int_or_none (or_none (option_map PInt (norm_temporal major (c_temporal c))))) with (Ok (norm_temporal major (c_temporal c))) by (destruct (norm_temporal major (c_temporal c)); reflexivity).
  cbn [rbind]. rewrite made_units. reflexivity.
Qed.
Lemma read_made_audio a o : audio_made a o -> read_audio o = Ok a.
Proof.
  intros M. unfold read_audio. rewrite (attr_of _ _ _ _ (am_format _ _ M _ (or_intror (or_introl eq_refl)))), (attr_of _ _ _ _ (am_channels _ _ M)), (attr_of _ _ _ _ (am_samples _ _ M)), (attr_of _ _ _ _ (am_rate _ _ M)).
  destruct a. reflexivity.
Qed.
Lemma read_made_coded_audio a o : coded_audio_made a o -> read_coded_audio o = Ok a.
Proof.
  intros M. unfold read_coded_audio. rewrite (attr_of _ _ _ _ (bm_format _ _ M _ (or_intror (or_introl eq_refl)))), (attr_of _ _ _ _ (bm_channels _ _ M)), (attr_of _ _ _ _ (bm_samples _ _ M)),
    (attr_of _ _ _ _ (bm_priming _ _ M)), (attr_of _ _ _ _ (bm_remainder _ _ M)), (attr_of _ _ _ _ (bm_rate _ _ M)).
  destruct a. reflexivity.
Qed.

(** The objects made at different times differ in that time only. *)
Lemma made_split m kind part late : exists p, forall now,
  made now m kind part late = [($"grain", PDict (p ++ [($"creation_timestamp", PTimeStr now)] ++ late)); ($"@_ns", PStr $"urn:x-ipstudio:ns:0.1")].
Proof.
  exists ([($"source_id", PUuidStr (uuid_value (m_src m))); ($"flow_id", PUuidStr (uuid_value (m_flow m)));
      ($"origin_timestamp", PTimeStr (m_origin m)); ($"sync_timestamp", PTimeStr (m_sync m)); ($"rate", ratio_pv (m_rate m)); ($"duration", ratio_pv (m_dur m))] ++
     opt_entry $"timelabels" (fun l => PList (map (fun t => PDict (til_dict t)) l)) (m_tils m) ++ [($"grain_type", PStr kind)] ++ part).
  intros now. unfold made. rewrite <- !app_assoc. reflexivity.
Qed.
Lemma made_when c now now' m v d w : only_created (made_obj c now m v d w) (made_obj c now' m v d w).
Proof.
  unfold only_created, made_obj. cbn [o_class o_data o_wait o_meta]. split; [reflexivity|]. split; [reflexivity|]. split; [reflexivity|].
  destruct (made_split m (own_type c) (own_part c v) (own_late c v)) as [p E]. unfold field. cbn [o_meta]. rewrite !E. split.
  - intros k N. cbn [dget]. destruct (zlist_eqb k $"grain") eqn:X; [apply zlist_eqb_eq in X; contradiction|]. reflexivity.
  - intros k N. unfold ditem. assert (F : forall x y : pv, dget $"grain" [($"grain", x); ($"@_ns", y)] = Some x) by reflexivity. rewrite !F. cbn [rbind sub]. unfold ditem.
    assert (G : forall p l x y, dget k (p ++ [($"creation_timestamp", x)] ++ l) = dget k (p ++ [($"creation_timestamp", y : pv)] ++ l)).
    { intros q l x y. induction q as [|[k' z] q IH]; cbn [app dget].
      - destruct (zlist_eqb k $"creation_timestamp") eqn:X; [apply zlist_eqb_eq in X; contradiction|reflexivity].
      - destruct (zlist_eqb k k'); [reflexivity|exact IH]. }
    rewrite (G p _ _ (PTimeStr now)). reflexivity.
Qed.
Lemma made_own c now m v d w : of_own_type (made_obj c now m v d w).
Proof. exact (cm_type _ _ _ (made_common c now m v d w)). Qed.

(** ** All together. *)
Lemma made_form major g : grain_ok g -> g_body g <> BEvent -> exists c v d, opt_bytes d = opt_bytes (g_data g) /\
  forall now, GrainFactory now (meta_dict (meta_of major g)) (arg_of (opt_bytes (g_data g))) = Ok (made_obj c now (meta_of major g) v d None) /\
    read_grain (made_obj c now (meta_of major g) v d None) = Ok (settled major g d).
Proof.
  intros K N. pose proof K as (_ & _ & _ & _ & _ & _ & _ & _ & _ & _ & Kb & _). set (a := arg_of (opt_bytes (g_data g))).
  assert (W : wait_of a = None) by (unfold a, arg_of; destruct (opt_bytes (g_data g)); reflexivity).
  assert (D1 : opt_bytes (data_of a) = opt_bytes (g_data g)) by (unfold a, arg_of; destruct (opt_bytes (g_data g)); reflexivity).
  assert (D2 : opt_bytes (data_or_empty a) = opt_bytes (g_data g)) by (unfold a, arg_of; destruct (opt_bytes (g_data g)); reflexivity).
  assert (RM : forall now c v d, c <> KEvent -> read_body (made_obj c now (meta_of major g) v d None) = Ok (settled_body major (g_body g)) ->
    read_grain (made_obj c now (meta_of major g) v d None) = Ok (settled major g d)).
  { intros now c v d Nc B. apply (read_made major now g _ d K (made_common _ _ _ _ _ _) B); [|reflexivity]. destruct c; try reflexivity. destruct Nc. reflexivity. }
  assert (RB : forall now c v d, read_body (made_obj c now (meta_of major g) v d None) =
    match c with
    | KGrain => Ok BEmpty | KEvent => Ok BEvent
    | KVideo => rbind (read_video (made_obj c now (meta_of major g) v d None)) (fun v => Ok (BVideo v)) | KCodedVideo => rbind (read_coded (made_obj c now (meta_of major g) v d None)) (fun c => Ok (BCoded c))
    | KAudio => rbind (read_audio (made_obj c now (meta_of major g) v d None)) (fun a => Ok (BAudio a)) | KCodedAudio => rbind (read_coded_audio (made_obj c now (meta_of major g) v d None)) (fun a => Ok (BCAudio a))
    end) by (intros now c v d; exact (own_body _ (made_own _ _ _ _ _ _))).
  destruct (g_body g) as [|v|c|x|x|] eqn:Eb.
  - exists KGrain, (PDict []), (data_of a). split; [exact D1|]. intros now. split.
    + destruct g as [s f t y r d ls bd n dt]. cbn [g_body] in Eb. subst bd. rewrite <- W. exact (made_empty _ _ _ _ _ _ _ _ _).
    + apply RM; [discriminate|]. rewrite RB. reflexivity.
  - exists KVideo, (PDict (video_dict (norm_vmeta v))), (data_or_empty a). split; [exact D2|]. intros now. split.
    + destruct g as [s f t y r d ls bd n dt]. cbn [g_body] in Eb. subst bd. rewrite <- W. exact (made_video _ _ _ _ _ _ _ _ _ _).
    + apply RM; [discriminate|]. rewrite RB. destruct Kb as (Kf & Kl & _ & _ & _ & Ks & Kp & _).
      assert (Rs : forall q, ratio_ok q -> ratio_lowest (norm_ratio q)) by (intros [q|]; cbn [ratio_ok norm_ratio]; [|auto]; intros [Q _]; destruct (fst q =? 0); [exact I|exact Q]).
      rewrite (read_made_video v); [reflexivity|reflexivity|]. apply made_frame; cbn [norm_vmeta v_format v_layout v_sar v_par]; auto.
  - exists KCodedVideo, (PDict (coded_dict (norm_cmeta major c) ++ [($"length", PInt 0)])), (data_or_empty a). split; [exact D2|]. intros now. split.
    + destruct g as [s f t y r d ls bd n dt]. cbn [g_body] in Eb. subst bd. rewrite <- W. exact (made_coded _ _ _ _ _ _ _ _ _ _).
    + apply RM; [discriminate|]. rewrite RB. destruct Kb as (Kf & Kl & _). rewrite (read_made_coded major c); [reflexivity|reflexivity|]. apply made_coded_frame; assumption.
  - exists KAudio, (PDict (audio_dict x)), (data_or_empty a). split; [exact D2|]. intros now. split.
    + destruct g as [s f t y r d ls bd n dt]. cbn [g_body] in Eb. subst bd. rewrite <- W. exact (made_audio _ _ _ _ _ _ _ _ _ _).
    + apply RM; [discriminate|]. rewrite RB, (read_made_audio x); [reflexivity|]. apply made_sound. apply Kb.
  - exists KCodedAudio, (PDict (coded_audio_dict x)), (data_or_empty a). split; [exact D2|]. intros now. split.
    + destruct g as [s f t y r d ls bd n dt]. cbn [g_body] in Eb. subst bd. rewrite <- W. exact (made_coded_audio _ _ _ _ _ _ _ _ _ _).
    + apply RM; [discriminate|]. rewrite RB, (read_made_coded_audio x); [reflexivity|]. apply made_coded_sound. apply Kb.
  - destruct N. reflexivity.
Qed.
