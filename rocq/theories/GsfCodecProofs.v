(** Decoding well-formed blocks: every block written as in GsfSpec is read back as its normal form, whatever
    unknown blocks are interleaved. *)
From Verif Require Import Base BaseProofs Utf8 Utf8Proofs GsfPrim GsfPrimProofs GsfBlock GsfBlockProofs
  GsfDecode CogEnums GsfEncode GsfSpec.
From Coq Require Import ZifyBool ZifyNat.
Ltac Zify.zify_post_hook ::= Z.div_mod_to_equations.

Definition smalls (l : list block) : Prop := Forall (fun c => small_payload (snd c)) l.
Definition tags4 (l : list block) : Prop := Forall (fun c => zlen (fst c) = 4) l.

Lemma blocks_app a b : blocks (a ++ b) = blocks a ++ blocks b.
Proof. unfold blocks. apply flat_map_app. Qed.

Lemma blocks_cons t pl l : blocks ((t, pl) :: l) = enc_block t pl ++ blocks l.
Proof. reflexivity. Qed.

Lemma blocks_smalls l : tags4 l -> zlen (blocks l) < 4294967296 -> smalls l.
Proof.
  intros H; induction H as [|[t pl] l Hc Hl IH]; intros HL; [constructor|].
  rewrite blocks_cons, zlen_app, enc_block_len in HL by exact Hc.
  pose proof (zlen_nonneg (blocks l)). pose proof (zlen_nonneg pl).
  constructor; [cbn [snd]; unfold small_payload; lia|apply IH; lia].
Qed.

Lemma Interleave_refl {A} (P : A -> Prop) l : Interleave P l l.
Proof. induction l; constructor; assumption. Qed.

Lemma Interleave_tags4 known l l' : Interleave (unknown_in known) l l' -> tags4 l -> tags4 l'.
Proof.
  intros H; induction H as [|x l l' H IH|x l l' Hx H IH]; intros HT; [constructor| |].
  - inversion HT; subst. constructor; [assumption|apply IH; assumption].
  - constructor; [|apply IH; assumption]. destruct Hx as (tag & Ht & _). apply Ht.
Qed.

(** Unknown blocks leave the state of a child loop unchanged. *)
Lemma Steps_interleave {S : Type} (step : blk -> S -> rd S) known s l l' s' :
  (forall b st, ~ In (b_tag b) known -> step b st = ret st) ->
  Interleave (unknown_in known) l l' -> smalls l' -> Steps step s l s' -> Steps step s l' s'.
Proof.
  intros HU H. revert s. induction H as [|x l l' H IH|x l l' Hx H IH]; intros s HS HSt.
  - assumption.
  - inversion HSt; subst. econstructor; eauto. apply IH; [exact (Forall_inv_tail HS)|assumption].
  - destruct Hx as (tag & Ht & Hn). destruct x as [t pl]. cbn [fst snd] in *.
    apply Steps_cons with (s' := s) (tag := tag); [exact Ht|exact (Forall_inv HS)| |apply IH; [exact (Forall_inv_tail HS)|assumption]].
    eapply PB_ext; [|apply PB_skip]. intros b Hb f p. rewrite HU; [reflexivity|]. rewrite Hb. assumption.
Qed.

Lemma tag_is_true t b : b_tag b = t -> tag_is t b = true.
Proof. intros <-. apply zlist_eqb_refl. Qed.

Lemma tag_is_false t b : b_tag b <> t -> tag_is t b = false.
Proof. intros H. apply zlist_eqb_neq. assumption. Qed.

Ltac not_in_tags H :=
  repeat (rewrite tag_is_false; [|intros E; apply H; rewrite E; cbn; tauto]).

Lemma member_u32 (l : list Z) v : forallb (fun x => (0 <=? x) && (x <? 4294967296)) l = true ->
  member l v = true -> u32 v.
Proof.
  intros H Hm. unfold member in Hm. apply existsb_exists in Hm as (x & Hx & E).
  rewrite forallb_forall in H. specialize (H x Hx). unfold u32. lia.
Qed.

Lemma member_u32_formats v : member frame_formats v = true -> u32 v.
Proof. apply member_u32. reflexivity. Qed.
Lemma member_u32_layouts v : member frame_layouts v = true -> u32 v.
Proof. apply member_u32. reflexivity. Qed.
Lemma member_u32_audio v : member audio_formats v = true -> u32 v.
Proof. apply member_u32. reflexivity. Qed.

(** ---------------------------------------------------------------- time labels *)

Lemma Parses_til t : til_ok t -> Parses decode_til (enc_til t) (norm_til t).
Proof.
  intros ((Hs & He & Hl) & Hc & Hn & Hd). unfold decode_til, enc_til, norm_til.
  eapply Parses_bind; [apply (Parses_fixstring 16); assumption|].
  eapply Parses_bind; [apply Parses_uint4; assumption|].
  rewrite app_assoc.
  eapply Parses_bind; [apply Parses_rational_raw; assumption|].
  rewrite <- (app_nil_r (enc_uint 1 _)).
  eapply Parses_bind; [apply (Parses_bool (tl_drop t))|]. apply Parses_ret.
Qed.

Lemma Parses_tils l : Forall til_ok l -> u16 (zlen l) ->
  Parses decode_tils (enc_uint 2 (zlen l) ++ flat_map enc_til l) (map norm_til l).
Proof.
  intros H Hl. unfold decode_tils. eapply Parses_bind; [apply Parses_uint2; assumption|].
  unfold zlen. rewrite Nat2Z.id. apply Parses_repeatm. intros x Hx. apply Parses_til.
  rewrite Forall_forall in H. auto.
Qed.

(** ---------------------------------------------------------------- components *)

Lemma Parses_comps l : Forall comp_ok l -> forall off,
  Parses (decode_comps (length l) off) (flat_map enc_comp l) (norm_comps off l).
Proof.
  intros H; induction H as [|c l (Hw & Hh & Hs & Hl) Hf IH]; intros off; [apply Parses_ret|].
  cbn [length decode_comps flat_map norm_comps]. unfold enc_comp at 1. rewrite <- !app_assoc.
  eapply Parses_bind; [apply Parses_uint4; assumption|].
  eapply Parses_bind; [apply Parses_uint4; assumption|].
  eapply Parses_bind; [apply Parses_uint4; assumption|].
  eapply Parses_bind; [apply Parses_uint4; assumption|].
  rewrite <- (app_nil_r (flat_map enc_comp l)).
  eapply Parses_bind; [apply IH|]. apply Parses_ret.
Qed.

Lemma Parses_ratio r : ratio_ok r ->
  exists x, Parses read_rational (enc_ratio r) x /\ opt_ratio x = norm_ratio r.
Proof.
  destruct r as [x|]; cbn [ratio_ok enc_ratio norm_ratio].
  - intros [H1 H2]. exists x. split; [apply Parses_rational; assumption|reflexivity].
  - intros _. exists (0, 1). split; [|reflexivity].
    apply Parses_rational; [split; reflexivity|split; cbn; lia].
Qed.

Lemma vghd_unknown b st : ~ In (b_tag b) vghd_known -> vghd_child b st = ret st.
Proof. intros H. unfold vghd_child. not_in_tags H. reflexivity. Qed.

Lemma Steps_comps v : vmeta_ok v -> smalls (comp_children v) ->
  Steps vghd_child [] (comp_children v) (norm_comps 0 (v_comps v)).
Proof.
  intros (_ & _ & _ & _ & _ & _ & _ & Hc & Hn) Hs. unfold comp_children in *.
  destruct (v_comps v) as [|c l] eqn:E; [constructor|]. rewrite <- E in *.
  apply Forall_inv in Hs. cbn [snd] in Hs. econstructor; [apply raw_comp|assumption| |constructor].
  apply PBx_PB. eapply PBx_ext.
  - intros b Hb f p. unfold vghd_child. rewrite tag_is_true by assumption. reflexivity.
  - apply Parses_PBx. eapply Parses_bind; [apply Parses_uint2; assumption|].
    unfold zlen. rewrite Nat2Z.id. apply Parses_comps. assumption.
Qed.

Lemma comp_children_tags4 v : tags4 (comp_children v).
Proof. unfold comp_children. destruct (v_comps v); repeat constructor. Qed.

Lemma unof_children_tags4 v : tags4 (unof_children v).
Proof. unfold unof_children. destruct (units v); repeat constructor. Qed.

Lemma Interleave_smalls {A} (P Q : A -> Prop) l l' : Interleave P l l' -> Forall Q l' -> Forall Q l.
Proof.
  intros H; induction H; intros HQ; [constructor| |]; inversion HQ; subst; [constructor|]; auto.
Qed.

Lemma PBx_vghd v cs : vmeta_ok v -> Interleave (unknown_in vghd_known) (comp_children v) cs ->
  zlen (blocks cs) < 4294967296 ->
  PBx T_vghd decode_vghd (vghd_fixed v ++ blocks cs) (norm_vmeta v).
Proof.
  intros Hv HI HL.
  assert (smalls cs) as Hs.
  { apply blocks_smalls; [eapply Interleave_tags4; [eassumption|apply comp_children_tags4]|assumption]. }
  pose proof (Steps_interleave _ _ _ _ _ _ vghd_unknown HI Hs
                (Steps_comps v Hv (Interleave_smalls _ _ _ _ HI Hs))) as HSt.
  destruct Hv as (Hf & Hl & Hw & Hh & He & Hsr & Hpr & _ & _).
  destruct (Parses_ratio _ Hsr) as (x1 & Hx1 & Hr1). destruct (Parses_ratio _ Hpr) as (x2 & Hx2 & Hr2).
  unfold decode_vghd, vghd_fixed, norm_vmeta. rewrite <- !app_assoc.
  assert (u32 (v_format v) /\ u32 (v_layout v)) as [Hf' Hl'].
  { split; [eapply member_u32_formats|eapply member_u32_layouts]; assumption. }
  apply PBx_pre with (v := v_format v) (m := read_uint 4); [apply Parses_uint4; assumption|].
  apply PBx_pre with (v := v_layout v) (m := read_uint 4); [apply Parses_uint4; assumption|].
  apply PBx_pre with (v := v_width v) (m := read_uint 4); [apply Parses_uint4; assumption|].
  apply PBx_pre with (v := v_height v) (m := read_uint 4); [apply Parses_uint4; assumption|].
  apply PBx_pre with (v := v_ext v) (m := read_uint 4); [apply Parses_uint4; assumption|].
  apply PBx_pre with (v := x1) (m := read_rational); [assumption|].
  apply PBx_pre with (v := x2) (m := read_rational); [assumption|].
  rewrite Hr1, Hr2.
  apply (PBx_map T_vghd (fun b => children b vghd_child [])
           (fun c => mkV (v_format v) (v_layout v) (v_width v) (v_height v) (v_ext v)
                         (norm_ratio (v_sar v)) (norm_ratio (v_par v)) c)).
  apply PBx_children. assumption.
Qed.

(** ---------------------------------------------------------------- coded video *)

Lemma cghd_unknown b st : ~ In (b_tag b) cghd_known -> cghd_child b st = ret st.
Proof. intros H. unfold cghd_child. not_in_tags H. reflexivity. Qed.

Lemma Steps_unof c : Forall u32 (units c) -> u16 (zlen (units c)) -> smalls (unof_children c) ->
  Steps cghd_child None (unof_children c) (match units c with [] => None | l => Some l end).
Proof.
  intros Hc Hn Hs. unfold unof_children in *.
  destruct (units c) as [|u l] eqn:E; [constructor|]. 
  apply Forall_inv in Hs. cbn [snd] in Hs.
  econstructor; [apply raw_unof|exact Hs| |constructor].
  apply PBx_PB. eapply PBx_ext.
  - intros b Hb f p. unfold cghd_child. rewrite tag_is_true by assumption. reflexivity.
  - apply Parses_PBx. eapply Parses_bind; [apply Parses_uint2; assumption|].
    apply (Parses_bind_ret (repeatm _ (read_uint 4)) Some).
    unfold zlen. rewrite Nat2Z.id. rewrite <- (map_id (u :: l)) at 3. apply Parses_repeatm.
    intros x Hx. apply Parses_uint4. rewrite Forall_forall in Hc. apply Hc. assumption.
Qed.

Lemma Parses_key_temporal major k t : match t with None => True | Some t => i32 t end ->
  Parses (decode_key_temporal major)
    (enc_uint 1 (match k with Some true => 1 | Some false => 0 | None => 3 end) ++
     enc_sint 4 (match t with Some t => t | None => 2147483647 end))
    (norm_key major k, norm_temporal major t).
Proof.
  intros Ht. unfold decode_key_temporal, norm_key, norm_temporal. destruct (major <? 9).
  - eapply Parses_bind.
    + unfold read_bool. rewrite <- (app_nil_r (enc_uint 1 _)).
      eapply Parses_bind; [apply Parses_uint1; destruct k as [[]|]; lia|apply Parses_ret].
    + replace (negb (_ =? 0)) with (match k with Some b => b | None => true end) by (destruct k as [[]|]; reflexivity).
      apply (Parses_bind_ret (read_sint 4) (fun t => (Some (match k with Some b => b | None => true end), Some t))).
      apply (Parses_sint 4); [lia|]. change (2 ^ (8 * Z.of_nat 4 - 1)) with 2147483648.
      unfold i32 in Ht. destruct t; lia.
  - eapply Parses_bind; [apply Parses_optional_bool|].
    apply (Parses_bind_ret (read_optional_sint 4 2147483647) (fun t => (k, t))).
    destruct t as [t|]; [|apply Parses_optional_sint4_null].
    destruct (t =? 2147483647) eqn:E.
    + assert (t = 2147483647) as -> by lia. apply Parses_optional_sint4_null.
    + apply Parses_optional_sint4. unfold i32 in Ht. lia.
Qed.

Lemma PBx_cghd major c cs : cmeta_ok c -> Interleave (unknown_in cghd_known) (unof_children c) cs ->
  zlen (blocks cs) < 4294967296 ->
  PBx T_cghd (decode_cghd major) (cghd_fixed c ++ blocks cs) (norm_cmeta major c).
Proof.
  intros (Hf & Hl & Hw & Hh & Hw2 & Hh2 & Ht & Hu & Hn) HI HL.
  assert (smalls cs) as Hs.
  { apply blocks_smalls; [eapply Interleave_tags4; [eassumption|apply unof_children_tags4]|assumption]. }
  pose proof (Steps_interleave _ _ _ _ _ _ cghd_unknown HI Hs
                (Steps_unof c Hu Hn (Interleave_smalls _ _ _ _ HI Hs))) as HSt.
  unfold decode_cghd, cghd_fixed, norm_cmeta. rewrite <- !app_assoc.
  apply member_u32_formats in Hf. apply member_u32_layouts in Hl.
  apply PBx_pre with (v := c_format c) (m := read_uint 4); [apply Parses_uint4; assumption|].
  apply PBx_pre with (v := c_layout c) (m := read_uint 4); [apply Parses_uint4; assumption|].
  apply PBx_pre with (v := c_ow c) (m := read_uint 4); [apply Parses_uint4; assumption|].
  apply PBx_pre with (v := c_oh c) (m := read_uint 4); [apply Parses_uint4; assumption|].
  apply PBx_pre with (v := c_cw c) (m := read_uint 4); [apply Parses_uint4; assumption|].
  apply PBx_pre with (v := c_ch c) (m := read_uint 4); [apply Parses_uint4; assumption|].
  rewrite app_assoc.
  apply PBx_pre with (m := decode_key_temporal major) (v := (norm_key major (c_key c), norm_temporal major (c_temporal c)));
    [apply Parses_key_temporal; assumption|]. cbn [fst snd].
  apply (PBx_map T_cghd (fun b => children b cghd_child None)
           (fun u => mkC (c_format c) (c_layout c) (c_ow c) (c_oh c) (c_cw c) (c_ch c)
                         (norm_key major (c_key c)) (norm_temporal major (c_temporal c)) u)).
  apply PBx_children. assumption.
Qed.

(** ---------------------------------------------------------------- audio *)

Lemma Parses_aghd a : ameta_ok a -> Parses decode_aghd (aghd_payload a) a.
Proof.
  intros (Hf & Hc & Hs & Hr). apply member_u32_audio in Hf. unfold decode_aghd, aghd_payload.
  eapply Parses_bind; [apply Parses_uint4; assumption|].
  eapply Parses_bind; [apply Parses_uint2; assumption|].
  eapply Parses_bind; [apply Parses_uint4; assumption|].
  rewrite <- (app_nil_r (enc_uint 4 (a_rate a))).
  eapply Parses_bind; [apply Parses_uint4; assumption|]. destruct a. apply Parses_ret.
Qed.

Lemma Parses_cahd a : cameta_ok a -> Parses decode_cahd (cahd_payload a) a.
Proof.
  intros (Hf & Hc & Hs & Hp & Hm & Hr). apply member_u32_audio in Hf. unfold decode_cahd, cahd_payload.
  eapply Parses_bind; [apply Parses_uint4; assumption|].
  eapply Parses_bind; [apply Parses_uint2; assumption|].
  eapply Parses_bind; [apply Parses_uint4; assumption|].
  eapply Parses_bind; [apply Parses_uint4; assumption|].
  eapply Parses_bind; [apply Parses_uint4; assumption|].
  rewrite <- (app_nil_r (enc_uint 4 (ca_rate a))).
  eapply Parses_bind; [apply Parses_uint4; assumption|]. destruct a. apply Parses_ret.
Qed.

(** ---------------------------------------------------------------- gbhd *)

Lemma Parses_fskip n bs : zlen bs = n -> Parses (fskip n) bs tt.
Proof. intros <- f p rest _. reflexivity. Qed.

Definition base_meta (major : Z) (g : grain) : gmeta :=
  mkMeta (g_src g) (g_flow g) (norm_ts major (g_origin g)) (norm_ts major (g_sync g)) (g_rate g) (g_dur g)
         None TEmpty None None None None.

Lemma Parses_gbhd_fixed major g : grain_ok g ->
  Parses (decode_gbhd_fixed major) (gbhd_fixed major g) (base_meta major g).
Proof.
  intros ((Hs & _) & (Hf & _) & Ho & Hy & Hr1 & Hr2 & Hd1 & Hd2 & _).
  unfold decode_gbhd_fixed, gbhd_fixed, base_meta, enc_times, norm_ts.
  eapply Parses_bind; [apply Parses_uuid; assumption|].
  eapply Parses_bind; [apply Parses_uuid; assumption|].
  destruct (major =? 7).
  - eapply Parses_bind.
    + eapply Parses_bind; [apply Parses_fskip; reflexivity|].
      eapply Parses_bind; [apply Parses_ts_v7; assumption|].
      apply (Parses_bind_ret read_timestamp_v7 (fun s => (Z.abs (g_origin g), s))). apply Parses_ts_v7; assumption.
    + eapply Parses_bind; [apply Parses_rational; assumption|].
      rewrite <- (app_nil_r (enc_rational (g_dur g))).
      eapply Parses_bind; [apply Parses_rational; assumption|]. apply Parses_ret.
  - eapply Parses_bind.
    + eapply Parses_bind; [apply Parses_ts; assumption|].
      apply (Parses_bind_ret read_timestamp (fun s => (g_origin g, s))). apply Parses_ts; assumption.
    + eapply Parses_bind; [apply Parses_rational; assumption|].
      rewrite <- (app_nil_r (enc_rational (g_dur g))).
      eapply Parses_bind; [apply Parses_rational; assumption|]. apply Parses_ret.
Qed.

Lemma gbhd_unknown major b st : ~ In (b_tag b) gbhd_known -> gbhd_child major b st = ret st.
Proof. intros H. unfold gbhd_child. not_in_tags H. reflexivity. Qed.

Ltac tag_cases Hb :=
  repeat first [rewrite (tag_is_true _ _ Hb) | rewrite tag_is_false by (rewrite Hb; discriminate)].

Lemma Steps_tils major m l : Forall til_ok l -> u16 (zlen l) -> smalls (tils_children l) ->
  Steps (gbhd_child major) m (tils_children l) (match l with [] => m | _ => set_tils m (map norm_til l) end).
Proof.
  intros Hl Hn Hs. unfold tils_children in *. destruct l as [|t l']; [constructor|].
  set (l := t :: l') in *. apply Forall_inv in Hs. cbn [snd] in Hs. econstructor; [apply raw_tils|assumption| |constructor].
  apply PBx_PB. eapply PBx_ext.
  - intros b Hb f p. unfold gbhd_child. tag_cases Hb. reflexivity.
  - apply (PBx_map T_tils (fun _ => decode_tils) (set_tils m)). apply Parses_PBx. apply Parses_tils; assumption.
Qed.

Lemma body_tags4 b bl : BodyBlocks b bl -> tags4 bl.
Proof. intros H; inversion H; subst; repeat constructor. Qed.

Definition set_body (major : Z) (m : gmeta) (b : gbody) : gmeta :=
  match b with
  | BEmpty => m
  | BVideo v => set_video m (norm_vmeta v)
  | BCoded c => set_coded m (norm_cmeta major c)
  | BAudio a => set_audio m a
  | BCAudio a => set_caudio m a
  | BEvent => set_event m
  end.

Lemma Steps_body major m b bl : gbody_ok b -> BodyBlocks b bl -> smalls bl ->
  Steps (gbhd_child major) m bl (set_body major m b).
Proof.
  intros Hb HB Hs.
  destruct HB as [| |a|a|v cs HI|c cs HI]; cbn [set_body gbody_ok] in *;
    try (apply Forall_inv in Hs; cbn [snd] in Hs).
  - constructor.
  - econstructor; [apply raw_eghd|assumption| |constructor].
    eapply PB_ext; [|apply PB_skip]. intros b Hb' f p. unfold gbhd_child. tag_cases Hb'. reflexivity.
  - econstructor; [apply raw_aghd|assumption| |constructor]. apply PBx_PB. eapply PBx_ext.
    + intros b Hb' f p. unfold gbhd_child. tag_cases Hb'. reflexivity.
    + apply (PBx_map T_aghd (fun _ => decode_aghd) (set_audio m)). apply Parses_PBx, Parses_aghd; assumption.
  - econstructor; [apply raw_cahd|assumption| |constructor]. apply PBx_PB. eapply PBx_ext.
    + intros b Hb' f p. unfold gbhd_child. tag_cases Hb'. reflexivity.
    + apply (PBx_map T_cahd (fun _ => decode_cahd) (set_caudio m)). apply Parses_PBx, Parses_cahd; assumption.
  - econstructor; [apply raw_vghd|assumption| |constructor]. apply PBx_PB. eapply PBx_ext.
    + intros b Hb' f p. unfold gbhd_child. tag_cases Hb'. reflexivity.
    + apply (PBx_map T_vghd decode_vghd (set_video m)). apply PBx_vghd; [assumption|assumption|].
      unfold small_payload in *. rewrite zlen_app in *. pose proof (zlen_nonneg (vghd_fixed v)). lia.
  - econstructor; [apply raw_cghd|assumption| |constructor]. apply PBx_PB. eapply PBx_ext.
    + intros b Hb' f p. unfold gbhd_child. tag_cases Hb'. reflexivity.
    + apply (PBx_map T_cghd (decode_cghd major) (set_coded m)). apply PBx_cghd; [assumption|assumption|].
      unfold small_payload in *. rewrite zlen_app in *. pose proof (zlen_nonneg (cghd_fixed c)). lia.
Qed.

Lemma tils_tags4 l : tags4 (tils_children l).
Proof. unfold tils_children. destruct l; repeat constructor. Qed.

Lemma meta_of_steps major g :
  set_body major (match g_tils g with [] => base_meta major g
                  | _ => set_tils (base_meta major g) (map norm_til (g_tils g)) end) (g_body g) = meta_of major g.
Proof.
  unfold set_body, meta_of, norm_tils, base_meta, set_tils, set_video, set_coded, set_audio, set_caudio, set_event.
  destruct (g_tils g), (g_body g); reflexivity.
Qed.

(** A gbhd block decodes to the grain's metadata in normal form. *)
Lemma PBx_gbhd major g pl : grain_ok g -> GbhdPayload major g pl -> small_payload pl ->
  PBx T_gbhd (decode_gbhd major) pl (meta_of major g).
Proof.
  intros Hg HP Hs. destruct HP as [body cs HB HI].
  assert (tags4 (tils_children (g_tils g) ++ body)) as H4.
  { apply Forall_app. split; [apply tils_tags4|eapply body_tags4; eassumption]. }
  assert (smalls cs) as Hsm.
  { apply blocks_smalls; [eapply Interleave_tags4; eassumption|].
    unfold small_payload in Hs. rewrite zlen_app in Hs. pose proof (zlen_nonneg (gbhd_fixed major g)). lia. }
  pose proof (Interleave_smalls _ _ _ _ HI Hsm) as Hsm'. apply Forall_app in Hsm' as [Hs1 Hs2].
  unfold decode_gbhd. eapply PBx_pre; [apply Parses_gbhd_fixed; assumption|].
  apply PBx_children. rewrite <- meta_of_steps.
  destruct Hg as (_ & _ & _ & _ & _ & _ & _ & _ & Ht & Hn & Hb & _).
  eapply Steps_interleave; [apply gbhd_unknown|eassumption|assumption|].
  eapply Steps_app; [apply Steps_tils; assumption|apply Steps_body; assumption].
Qed.

(** ---------------------------------------------------------------- head *)

Lemma Parses_tag kv : tag_fits kv -> Parses decode_tag (enc_varstring (fst kv) ++ enc_varstring (snd kv)) kv.
Proof.
  intros ((H1 & H2 & H3) & (H4 & H5 & H6)). unfold decode_tag.
  eapply Parses_bind; [apply Parses_varstring; assumption|].
  rewrite <- (app_nil_r (enc_varstring (snd kv))).
  eapply Parses_bind; [apply Parses_varstring; assumption|]. destruct kv. apply Parses_ret.
Qed.

Lemma Parses_varbytes d : u32 (zlen d) -> Parses read_varbytes (enc_uint 4 (zlen d) ++ d) d.
Proof.
  intros H. unfold read_varbytes. eapply Parses_bind; [apply Parses_uint4; assumption|].
  apply Parses_fread. reflexivity.
Qed.

Lemma Parses_flow x s : flow_fits x s -> zlen (ef_data x) < 4294967296 ->
  Parses decode_flow (enc_uuid (ef_src x) ++ enc_uuid (ef_flow x) ++ enc_fixstring 64 (ef_format x) ++
                      enc_uint 4 (zlen (ef_data x)) ++ ef_data x)
         (mkFlow (ef_src x) (ef_flow x) (ef_format x) s).
Proof.
  intros ((H1 & _) & (H2 & _) & (H3 & H4 & H5) & H6) HL. unfold decode_flow.
  eapply Parses_bind; [apply Parses_uuid; assumption|].
  eapply Parses_bind; [apply Parses_uuid; assumption|].
  eapply Parses_bind; [apply (Parses_fixstring 64); assumption|].
  rewrite <- (app_nil_r (enc_uint 4 _ ++ _)).
  eapply Parses_bind; [apply Parses_varbytes; pose proof (zlen_nonneg (ef_data x)); unfold u32; lia|].
  rewrite H6. apply Parses_ret.
Qed.

Lemma segm_unknown b st : ~ In (b_tag b) segm_known -> segm_child b st = ret st.
Proof. intros H. unfold segm_child. not_in_tags H. reflexivity. Qed.

Lemma tag_blocks_tags4 l : tags4 (map tag_block l).
Proof. apply Forall_map, Forall_forall. reflexivity. Qed.

Lemma flow_tags4 fl : tags4 (flow_children fl).
Proof. destruct fl; repeat constructor. Qed.

Lemma Steps_segm_tags s l : Forall tag_fits l -> smalls (map tag_block l) ->
  Steps segm_child s (map tag_block l)
    (mkSegm (sg_local s) (sg_id s) (sg_count s) (sg_flow s) (sg_tags s ++ l)).
Proof.
  intros H. revert s. induction H as [|kv l Hkv Hl IH]; intros s Hs; cbn [map] in *.
  - rewrite app_nil_r. destruct s. constructor.
  - pose proof (Forall_inv Hs) as Hs0. pose proof (Forall_inv_tail Hs) as Hs'. cbn [tag_block snd] in Hs0.
    econstructor; [apply raw_tagtag|assumption| |].
    + apply PBx_PB. eapply PBx_ext.
      * intros b Hb f p. unfold segm_child. tag_cases Hb. reflexivity.
      * apply (PBx_map T_tag (fun _ => decode_tag)
                 (fun kv => mkSegm (sg_local s) (sg_id s) (sg_count s) (sg_flow s) (sg_tags s ++ [kv]))).
        apply Parses_PBx, Parses_tag; assumption.
    + specialize (IH (mkSegm (sg_local s) (sg_id s) (sg_count s) (sg_flow s) (sg_tags s ++ [kv]))).
      cbn [sg_local sg_id sg_count sg_flow sg_tags] in IH. rewrite <- app_assoc in IH. apply IH. assumption.
Qed.

Lemma PBx_segm s count pl sg : SegmPayload s count pl sg -> small_payload pl ->
  PBx T_segm decode_segm pl sg.
Proof.
  intros HP Hs. destruct HP as [fl cs Hl (Hi & _) Hc Ht Hf HI].
  assert (smalls cs) as Hsm.
  { apply blocks_smalls.
    - eapply Interleave_tags4; [eassumption|]. apply Forall_app. split; [apply flow_tags4|apply tag_blocks_tags4].
    - unfold small_payload in Hs. rewrite !zlen_app in Hs.
      pose proof (zlen_nonneg (enc_uint 2 (es_local s))). pose proof (zlen_nonneg (enc_uuid (es_id s))).
      pose proof (zlen_nonneg (enc_sint 8 count)). lia. }
  pose proof (Interleave_smalls _ _ _ _ HI Hsm) as Hsm'. apply Forall_app in Hsm' as [Hs1 Hs2].
  unfold decode_segm.
  apply PBx_pre with (m := read_uint 2) (v := es_local s); [apply Parses_uint2; assumption|].
  apply PBx_pre with (m := read_uuid) (v := es_id s); [apply Parses_uuid; assumption|].
  apply PBx_pre with (m := read_sint 8) (v := count).
  { apply (Parses_sint 8); [lia|]. change (2 ^ (8 * Z.of_nat 8 - 1)) with 9223372036854775808. exact Hc. }
  apply PBx_children. eapply Steps_interleave; [apply segm_unknown|eassumption|assumption|].
  eapply Steps_app.
  - instantiate (1 := mkSegm (es_local s) (es_id s) count fl []).
    destruct Hf as [|x str Hx]; [constructor|]. cbn [flow_children] in *. apply Forall_inv in Hs1. cbn [snd] in Hs1.
    econstructor; [apply raw_flow|assumption| |constructor]. apply PBx_PB. eapply PBx_ext.
    + intros b Hb f p. unfold segm_child. tag_cases Hb. reflexivity.
    + apply (PBx_map T_flow (fun _ => decode_flow)
               (fun x => mkSegm (es_local s) (es_id s) count (Some x) [])).
      apply Parses_PBx, Parses_flow; [assumption|].
      match goal with H : small_payload _ |- _ => unfold small_payload in H; rewrite !zlen_app in H end.
      pose proof (zlen_nonneg (enc_uuid (ef_src x))). pose proof (zlen_nonneg (enc_uuid (ef_flow x))).
      pose proof (zlen_nonneg (enc_fixstring 64 (ef_format x))).
      pose proof (zlen_nonneg (enc_uint 4 (zlen (ef_data x)))). lia.
  - apply (Steps_segm_tags (mkSegm (es_local s) (es_id s) count fl [])); assumption.
Qed.

Lemma head_unknown b st : ~ In (b_tag b) head_known -> head_child b st = ret st.
Proof. intros H. unfold head_child. not_in_tags H. reflexivity. Qed.

Lemma SegmBlocks_tags4 l bl sl : SegmBlocks l bl sl -> tags4 bl.
Proof. intros H; induction H; constructor; [reflexivity|assumption]. Qed.

Lemma Steps_head_segms l bl sl : SegmBlocks l bl sl -> smalls bl -> forall h,
  Steps head_child h bl (mkHead (hd_id h) (hd_created h) (hd_segs h ++ sl) (hd_tags h)).
Proof.
  intros H; induction H as [|s c pl sg l bl sl HP HS IH]; intros Hs h.
  - rewrite app_nil_r. destruct h. constructor.
  - pose proof (Forall_inv Hs) as Hs0. pose proof (Forall_inv_tail Hs) as Hs'. cbn [snd] in Hs0. econstructor; [apply raw_segm|assumption| |].
    + apply PBx_PB. eapply PBx_ext.
      * intros b Hb f p. unfold head_child. tag_cases Hb. reflexivity.
      * apply (PBx_map T_segm decode_segm
                 (fun x => mkHead (hd_id h) (hd_created h) (hd_segs h ++ [x]) (hd_tags h))).
        eapply PBx_segm; eassumption.
    + specialize (IH Hs' (mkHead (hd_id h) (hd_created h) (hd_segs h ++ [sg]) (hd_tags h))).
      cbn [hd_id hd_created hd_segs hd_tags] in IH. rewrite <- app_assoc in IH. exact IH.
Qed.

Lemma Steps_head_tags h l : Forall tag_fits l -> smalls (map tag_block l) ->
  Steps head_child h (map tag_block l) (mkHead (hd_id h) (hd_created h) (hd_segs h) (hd_tags h ++ l)).
Proof.
  intros H. revert h. induction H as [|kv l Hkv Hl IH]; intros h Hs; cbn [map] in *.
  - rewrite app_nil_r. destruct h. constructor.
  - pose proof (Forall_inv Hs) as Hs0. pose proof (Forall_inv_tail Hs) as Hs'. cbn [tag_block snd] in Hs0.
    econstructor; [apply raw_tagtag|assumption| |].
    + apply PBx_PB. eapply PBx_ext.
      * intros b Hb f p. unfold head_child. tag_cases Hb. reflexivity.
      * apply (PBx_map T_tag (fun _ => decode_tag)
                 (fun kv => mkHead (hd_id h) (hd_created h) (hd_segs h) (hd_tags h ++ [kv]))).
        apply Parses_PBx, Parses_tag; assumption.
    + specialize (IH (mkHead (hd_id h) (hd_created h) (hd_segs h) (hd_tags h ++ [kv]))).
      cbn [hd_id hd_created hd_segs hd_tags] in IH. rewrite <- app_assoc in IH. apply IH. assumption.
Qed.

Lemma PBx_head id created segs tags pl h : HeadPayload id created segs tags pl h -> small_payload pl ->
  PBx T_head decode_head pl h.
Proof.
  intros HP Hs. destruct HP as [bl sl cs (Hi & _) Hd Ht HS HI].
  assert (smalls cs) as Hsm.
  { apply blocks_smalls.
    - eapply Interleave_tags4; [eassumption|]. apply Forall_app.
      split; [eapply SegmBlocks_tags4; eassumption|apply tag_blocks_tags4].
    - unfold small_payload in Hs. rewrite !zlen_app in Hs.
      pose proof (zlen_nonneg (enc_uuid id)). pose proof (zlen_nonneg (enc_datetime created)). lia. }
  pose proof (Interleave_smalls _ _ _ _ HI Hsm) as Hsm'. apply Forall_app in Hsm' as [Hs1 Hs2].
  unfold decode_head.
  apply PBx_pre with (m := read_uuid) (v := id); [apply Parses_uuid; assumption|].
  apply PBx_pre with (m := read_datetime) (v := created); [apply Parses_datetime; assumption|].
  apply PBx_children. eapply Steps_interleave; [apply head_unknown|eassumption|assumption|].
  eapply Steps_app; [eapply Steps_head_segms; eassumption|].
  apply (Steps_head_tags (mkHead id created sl [])); assumption.
Qed.
