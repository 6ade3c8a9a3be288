(** The encoder's output is a tree of exactly-sized blocks, as described in GsfSpec. *)
From Verif Require Import Base BaseProofs Utf8 Utf8Proofs GsfPrim GsfPrimProofs GsfBlock GsfBlockProofs
  GsfDecode CogEnums GsfEncode GsfSpec GsfCodecProofs.
From Coq Require Import ZifyBool ZifyNat.
Ltac Zify.zify_post_hook ::= Z.div_mod_to_equations.

Lemma Ok_inj {A} (a b : A) : Ok a = Ok b -> a = b.
Proof. congruence. Qed.

Lemma enc_sint_len n v : zlen (enc_sint n v) = Z.of_nat n.
Proof. apply enc_uint_len. Qed.

Lemma enc_rational_len r : zlen (enc_rational r) = 8.
Proof. unfold enc_rational. rewrite zlen_app, !enc_uint_len. reflexivity. Qed.

Lemma enc_ratio_len r : zlen (enc_ratio r) = 8.
Proof. destruct r; apply enc_rational_len. Qed.

Lemma enc_datetime_len d : zlen (enc_datetime d) = 7.
Proof. unfold enc_datetime. rewrite !zlen_app, enc_sint_len, !enc_uint_len. reflexivity. Qed.

Lemma enc_times_len major g : zlen (enc_times major g) = if major =? 7 then 36 else 22.
Proof.
  unfold enc_times, enc_ts_v7, enc_ts, enc_bool.
  destruct (major =? 7); rewrite !zlen_app, !enc_uint_len; reflexivity.
Qed.

Lemma enc_til_len t : zlen (enc_til t) = 29.
Proof. unfold enc_til. rewrite !zlen_app, enc_fixstring_len, !enc_uint_len. reflexivity. Qed.

Lemma flat_map_len {A} (enc : A -> bytes) n l : (forall x, zlen (enc x) = n) -> zlen (flat_map enc l) = n * zlen l.
Proof.
  intros H; induction l as [|x l IH]; cbn [flat_map]; [rewrite (zlen_nil (A:=A)), (zlen_nil (A:=Z)); lia|].
  rewrite zlen_app, zlen_cons, H, IH. lia.
Qed.

Lemma enc_comp_len c : zlen (enc_comp c) = 16.
Proof. unfold enc_comp. rewrite !zlen_app, !enc_uint_len. reflexivity. Qed.

Lemma block_eq t size pl : size = 8 + zlen pl -> t ++ enc_uint 4 size ++ pl = enc_block t pl.
Proof. intros ->. reflexivity. Qed.

(** ---------------------------------------------------------------- tags, flows, segments, head *)

Lemma tag_size_eq kv : tag_size kv = 8 + zlen (snd (tag_block kv)).
Proof. unfold tag_size, tag_block, enc_varstring. cbn [snd]. rewrite !zlen_app, !enc_uint_len. lia. Qed.

Lemma enc_tag_block kv : enc_tag kv = enc_blk (tag_block kv).
Proof.
  unfold enc_tag. rewrite tag_size_eq. unfold enc_blk, tag_block, enc_block, enc_varstring. cbn [fst snd].
  rewrite <- !app_assoc. reflexivity.
Qed.

Lemma enc_tags_blocks l : flat_map enc_tag l = blocks (map tag_block l).
Proof. unfold blocks. induction l as [|x l IH]; cbn [flat_map map]; [reflexivity|]. now rewrite enc_tag_block, IH. Qed.

Lemma tags_size_eq l : zsum (map tag_size l) = zlen (blocks (map tag_block l)).
Proof.
  induction l as [|x l IH]; [reflexivity|]. cbn [map zsum]. rewrite IH, tag_size_eq.
  unfold blocks. cbn [flat_map]. rewrite zlen_app. fold (blocks (map tag_block l)).
  change (enc_blk (tag_block x)) with (enc_block T_tag (snd (tag_block x))). rewrite enc_block_len by reflexivity.
  reflexivity.
Qed.

Lemma flow_size_eq fl : (match fl with Some x => zlen (ef_src x) = 16 /\ zlen (ef_flow x) = 16 | None => True end) ->
  flow_size fl = zlen (blocks (flow_children fl)).
Proof.
  destruct fl as [x|]; [|reflexivity]. intros [H1 H2]. unfold flow_size. cbn [flow_children].
  rewrite blocks_cons, zlen_app, enc_block_len by reflexivity. change (blocks []) with (@nil Z). rewrite zlen_nil.
  rewrite !zlen_app, enc_fixstring_len, enc_uint_len. unfold enc_uuid. lia.
Qed.

Lemma enc_flow_blocks fl : (match fl with Some x => zlen (ef_src x) = 16 /\ zlen (ef_flow x) = 16 | None => True end) ->
  enc_flow fl = blocks (flow_children fl).
Proof.
  intros H. pose proof (flow_size_eq fl H) as HS.
  destruct fl as [x|]; [|reflexivity]. cbn [enc_flow]. rewrite HS. cbn [flow_children].
  rewrite blocks_cons. change (blocks []) with (@nil Z). rewrite !app_nil_r.
  apply block_eq. apply enc_block_len. reflexivity.
Qed.

(** A segment as the encoder holds it: 16-byte UUIDs. *)
Definition eseg_uuids (s : eseg) : Prop :=
  zlen (es_id s) = 16 /\
  match es_flow s with Some x => zlen (ef_src x) = 16 /\ zlen (ef_flow x) = 16 | None => True end.

Definition segm_children (s : eseg) : list block := flow_children (es_flow s) ++ map tag_block (es_tags s).
Definition segm_fixed (s : eseg) (count : Z) : bytes := enc_uint 2 (es_local s) ++ enc_uuid (es_id s) ++ enc_sint 8 count.

Lemma segm_size_eq s count : eseg_uuids s ->
  segm_size s = 8 + zlen (segm_fixed s count ++ blocks (segm_children s)).
Proof.
  intros [H1 H2]. unfold segm_size. rewrite (flow_size_eq _ H2), tags_size_eq. unfold segm_fixed, segm_children.
  rewrite blocks_app, !zlen_app, enc_uint_len, enc_sint_len. unfold enc_uuid. lia.
Qed.

Lemma enc_segm_block s count : eseg_uuids s ->
  enc_segm s count = enc_block T_segm (segm_fixed s count ++ blocks (segm_children s)).
Proof.
  intros H. unfold enc_segm, enc_segm_prefix. rewrite (segm_size_eq s count H).
  destruct H as [H1 H2]. rewrite (enc_flow_blocks _ H2), enc_tags_blocks.
  unfold enc_block, segm_fixed, segm_children. rewrite blocks_app, <- !app_assoc. reflexivity.
Qed.

Definition segm_block (sc : eseg * Z) : block :=
  (T_segm, segm_fixed (fst sc) (snd sc) ++ blocks (segm_children (fst sc))).

Definition head_children (segs : list (eseg * Z)) (tags : list (str * str)) : list block :=
  map segm_block segs ++ map tag_block tags.

Lemma segms_size_eq segs : Forall (fun sc => eseg_uuids (fst sc)) segs ->
  zsum (map segm_size (map fst segs)) = zlen (blocks (map segm_block segs)).
Proof.
  intros H; induction H as [|[s c] l Hs Hl IH]; [reflexivity|]. cbn [map zsum fst].
  unfold segm_block at 1. rewrite blocks_cons, zlen_app, enc_block_len by reflexivity.
  rewrite IH. cbn [fst snd]. rewrite <- (segm_size_eq s c Hs). reflexivity.
Qed.

Lemma enc_segms_blocks segs : Forall (fun sc => eseg_uuids (fst sc)) segs ->
  flat_map (fun sc => enc_segm (fst sc) (snd sc)) segs = blocks (map segm_block segs).
Proof.
  intros H; induction H as [|[s c] l Hs Hl IH]; [reflexivity|]. cbn [flat_map map fst snd].
  rewrite IH, (enc_segm_block s c Hs). reflexivity.
Qed.

Lemma enc_head_block id created segs tags : zlen id = 16 -> Forall (fun sc => eseg_uuids (fst sc)) segs ->
  enc_head id created segs tags =
  enc_block T_head (enc_uuid id ++ enc_datetime created ++ blocks (head_children segs tags)).
Proof.
  intros Hi Hs. unfold enc_head, enc_head_prefix. rewrite (segms_size_eq _ Hs), tags_size_eq.
  rewrite (enc_segms_blocks _ Hs), enc_tags_blocks. unfold head_children. rewrite blocks_app.
  rewrite <- !app_assoc. apply block_eq. rewrite !zlen_app, enc_datetime_len. unfold enc_uuid. lia.
Qed.

(** ---------------------------------------------------------------- grains *)

Lemma gt0_cons {A} (x : A) l : (zlen (x :: l) >? 0) = true.
Proof. rewrite zlen_cons. pose proof (zlen_nonneg l). lia. Qed.

Lemma enc_tils_blocks l : enc_tils l = blocks (tils_children l) /\
  (if zlen l >? 0 then 10 + 29 * zlen l else 0) = zlen (blocks (tils_children l)).
Proof.
  unfold enc_tils, tils_children. destruct l as [|t l']; [split; reflexivity|]. rewrite gt0_cons.
  set (l := t :: l'). rewrite blocks_cons. change (blocks []) with (@nil Z). rewrite app_nil_r.
  assert (10 + 29 * zlen l = 8 + zlen (enc_uint 2 (zlen l) ++ flat_map enc_til l)) as E.
  { rewrite zlen_app, enc_uint_len, (flat_map_len _ 29) by apply enc_til_len. lia. }
  split; [apply block_eq; assumption|]. rewrite enc_block_len by reflexivity. assumption.
Qed.

Lemma to_enum_ok l v x : to_enum l v = Ok x -> x = v /\ member l v = true.
Proof. unfold to_enum. destruct (member l v); [|discriminate]. intros H; apply Ok_inj in H. auto. Qed.

Lemma vghd_fixed_len v : zlen (vghd_fixed v) = 36.
Proof. unfold vghd_fixed. rewrite !zlen_app, !enc_uint_len, !enc_ratio_len. reflexivity. Qed.

Lemma cghd_fixed_len v : zlen (cghd_fixed v) = 29.
Proof. unfold cghd_fixed. rewrite !zlen_app, !enc_uint_len, !enc_sint_len. reflexivity. Qed.

Lemma enc_vghd_block v bs : enc_vghd v = Ok bs ->
  bs = blocks [(T_vghd, vghd_fixed v ++ blocks (comp_children v))] /\ vghd_size v = zlen bs.
Proof.
  unfold enc_vghd. intros H.
  destruct (to_enum frame_formats (v_format v)) as [fmt|] eqn:E1; [|discriminate]. cbn [rbind] in H.
  destruct (to_enum frame_layouts (v_layout v)) as [lay|] eqn:E2; [|discriminate]. cbn [rbind] in H.
  apply to_enum_ok in E1 as [-> _]. apply to_enum_ok in E2 as [-> _]. apply Ok_inj in H; subst bs.
  assert (blocks (comp_children v) =
    (if zlen (v_comps v) >? 0 then
       T_comp ++ enc_uint 4 (10 + 16 * zlen (v_comps v)) ++ enc_uint 2 (zlen (v_comps v)) ++
       flat_map enc_comp (v_comps v) else []) /\
    vghd_size v = 44 + zlen (blocks (comp_children v))) as [Eb Es].
  { unfold comp_children, vghd_size. destruct (v_comps v) as [|c l']; [split; reflexivity|].
    rewrite gt0_cons. set (l := c :: l'). rewrite blocks_cons. change (blocks []) with (@nil Z). rewrite app_nil_r.
    assert (10 + 16 * zlen l = 8 + zlen (enc_uint 2 (zlen l) ++ flat_map enc_comp l)) as E.
    { rewrite zlen_app, enc_uint_len, (flat_map_len _ 16) by apply enc_comp_len. lia. }
    split; [symmetry; apply block_eq; assumption|]. rewrite enc_block_len by reflexivity. lia. }
  rewrite <- Eb.
  assert (vghd_size v = 8 + zlen (vghd_fixed v ++ blocks (comp_children v))) as E.
  { rewrite zlen_app, vghd_fixed_len. lia. }
  rewrite blocks_cons. change (blocks []) with (@nil Z). rewrite app_nil_r.
  assert (forall X, X = enc_block T_vghd (vghd_fixed v ++ blocks (comp_children v)) ->
          X = enc_block T_vghd (vghd_fixed v ++ blocks (comp_children v)) /\ vghd_size v = zlen X) as HX.
  { intros X ->. split; [reflexivity|]. rewrite enc_block_len by reflexivity. exact E. }
  apply HX. rewrite <- (block_eq _ _ _ E). unfold vghd_fixed. rewrite <- !app_assoc. reflexivity.
Qed.

Lemma enc_cghd_block v bs : enc_cghd v = Ok bs ->
  bs = blocks [(T_cghd, cghd_fixed v ++ blocks (unof_children v))] /\ cghd_size v = zlen bs.
Proof.
  unfold enc_cghd. intros H.
  destruct (to_enum frame_formats (c_format v)) as [fmt|] eqn:E1; [|discriminate]. cbn [rbind] in H.
  destruct (to_enum frame_layouts (c_layout v)) as [lay|] eqn:E2; [|discriminate]. cbn [rbind] in H.
  apply to_enum_ok in E1 as [-> _]. apply to_enum_ok in E2 as [-> _]. apply Ok_inj in H; subst bs.
  assert (blocks (unof_children v) =
    (if zlen (units v) >? 0 then
       T_unof ++ enc_uint 4 (10 + 4 * zlen (units v)) ++ enc_uint 2 (zlen (units v)) ++
       flat_map (enc_uint 4) (units v) else []) /\
    cghd_size v = 37 + zlen (blocks (unof_children v))) as [Eb Es].
  { unfold unof_children, cghd_size. destruct (units v) as [|c l']; [split; reflexivity|].
    rewrite gt0_cons. set (l := c :: l'). rewrite blocks_cons. change (blocks []) with (@nil Z). rewrite app_nil_r.
    assert (10 + 4 * zlen l = 8 + zlen (enc_uint 2 (zlen l) ++ flat_map (enc_uint 4) l)) as E.
    { rewrite zlen_app, enc_uint_len, (flat_map_len _ 4) by (intros; apply enc_uint_len). lia. }
    split; [symmetry; apply block_eq; assumption|]. rewrite enc_block_len by reflexivity. lia. }
  rewrite <- Eb.
  assert (cghd_size v = 8 + zlen (cghd_fixed v ++ blocks (unof_children v))) as E.
  { rewrite zlen_app, cghd_fixed_len. lia. }
  rewrite blocks_cons. change (blocks []) with (@nil Z). rewrite app_nil_r.
  assert (forall X, X = enc_block T_cghd (cghd_fixed v ++ blocks (unof_children v)) ->
          X = enc_block T_cghd (cghd_fixed v ++ blocks (unof_children v)) /\ cghd_size v = zlen X) as HX.
  { intros X ->. split; [reflexivity|]. rewrite enc_block_len by reflexivity. exact E. }
  apply HX. rewrite <- (block_eq _ _ _ E). unfold cghd_fixed. rewrite <- !app_assoc. reflexivity.
Qed.

(** The body blocks as the encoder writes them: nothing interleaved. *)
Definition body_children (b : gbody) : list block :=
  match b with
  | BEmpty => []
  | BVideo v => [(T_vghd, vghd_fixed v ++ blocks (comp_children v))]
  | BCoded c => [(T_cghd, cghd_fixed c ++ blocks (unof_children c))]
  | BAudio a => [(T_aghd, aghd_payload a)]
  | BCAudio a => [(T_cahd, cahd_payload a)]
  | BEvent => [(T_eghd, enc_uint 1 0)]
  end.

Lemma body_children_BB b : BodyBlocks b (body_children b).
Proof. destruct b; constructor; apply Interleave_refl. Qed.

Lemma enc_body_blocks b bs : enc_body b = Ok bs -> bs = blocks (body_children b) /\ body_size b = zlen bs.
Proof.
  destruct b; cbn [enc_body body_children body_size].
  - intros H; apply Ok_inj in H; subst bs. split; reflexivity.
  - apply enc_vghd_block.
  - apply enc_cghd_block.
  - unfold enc_aghd. destruct (to_enum audio_formats (a_format a)) as [fmt|] eqn:E1; [|discriminate]. cbn [rbind].
    apply to_enum_ok in E1 as [-> _]. intros H; apply Ok_inj in H; subst bs. split; [reflexivity|].
    rewrite !zlen_app, !enc_uint_len. reflexivity.
  - unfold enc_cahd. destruct (to_enum audio_formats (ca_format a)) as [fmt|] eqn:E1; [|discriminate]. cbn [rbind].
    apply to_enum_ok in E1 as [-> _]. intros H; apply Ok_inj in H; subst bs. split; [reflexivity|].
    rewrite !zlen_app, !enc_uint_len. reflexivity.
  - intros H; apply Ok_inj in H; subst bs. split; reflexivity.
Qed.

Definition gbhd_children (g : grain) : list block := tils_children (g_tils g) ++ body_children (g_body g).

Lemma gbhd_fixed_len major g : zlen (g_src g) = 16 -> zlen (g_flow g) = 16 ->
  zlen (gbhd_fixed major g) = if major =? 7 then 84 else 70.
Proof.
  intros H1 H2. unfold gbhd_fixed, enc_uuid. rewrite !zlen_app, enc_times_len, !enc_rational_len.
  destruct (major =? 7); lia.
Qed.

Definition grai_children (major : Z) (g : grain) : list block :=
  [(T_gbhd, gbhd_fixed major g ++ blocks (gbhd_children g)); (T_grdt, opt_bytes (g_data g))].

(** The encoder's grain block, for a grain whose length property is the length of its data. *)
Lemma enc_grain_block major local g bs :
  zlen (g_src g) = 16 -> zlen (g_flow g) = 16 -> g_len g = zlen (opt_bytes (g_data g)) ->
  enc_grain major local g = Ok bs ->
  bs = enc_block T_grai (enc_uint 2 local ++ blocks (grai_children major g)).
Proof.
  intros H1 H2 HL H. unfold enc_grain in H.
  destruct (enc_body (g_body g)) as [body|] eqn:EB; [|discriminate]. cbn [rbind] in H. apply Ok_inj in H; subst bs.
  apply enc_body_blocks in EB as [-> Hbs].
  destruct (enc_tils_blocks (g_tils g)) as [-> Hts].
  assert (gbhd_size major g = 8 + zlen (gbhd_fixed major g ++ blocks (gbhd_children g))) as EG.
  { unfold gbhd_size. rewrite Hts, Hbs. unfold gbhd_children. rewrite blocks_app, !zlen_app.
    rewrite (gbhd_fixed_len major g H1 H2). destruct (major =? 7); lia. }
  assert (10 + gbhd_size major g + 8 + g_len g = 8 + zlen (enc_uint 2 local ++ blocks (grai_children major g))) as ER.
  { unfold grai_children. rewrite blocks_cons, blocks_cons, !zlen_app, enc_uint_len, !enc_block_len by reflexivity.
    change (blocks []) with (@nil Z). rewrite zlen_nil. lia. }
  rewrite <- (block_eq _ _ _ ER). unfold grai_children. rewrite blocks_cons, blocks_cons.
  change (blocks []) with (@nil Z). rewrite app_nil_r.
  rewrite <- (block_eq T_gbhd _ _ EG).
  assert (8 + g_len g = 8 + zlen (opt_bytes (g_data g))) as ED by lia.
  rewrite <- (block_eq T_grdt _ _ ED).
  unfold gbhd_fixed, gbhd_children. rewrite blocks_app, <- !app_assoc. reflexivity.
Qed.

Lemma enc_grain_payload major local g bs : grain_ok g -> enc_grain major local g = Ok bs ->
  exists pl off, bs = enc_block T_grai pl /\ GraiPayload major local g pl off.
Proof.
  intros Hg H. exists (enc_uint 2 local ++ blocks (grai_children major g)). eexists. split.
  - destruct Hg as ((H1 & _) & (H2 & _) & _ & _ & _ & _ & _ & _ & _ & _ & _ & HL & _).
    apply enc_grain_block; assumption.
  - unfold grai_children. rewrite !blocks_cons. change (blocks []) with (@nil Z).
    change (enc_block T_grdt ?x ++ []) with (blocks [] ++ enc_block T_grdt x ++ []).
    apply GR_intro with (extra := []); [|constructor].
    econstructor; [apply body_children_BB|apply Interleave_refl].
Qed.

(** Encoding succeeds exactly when the enumerated fields are members of their enumerations. *)
Lemma enc_grain_ok major local g : grain_ok g -> exists bs, enc_grain major local g = Ok bs.
Proof.
  intros Hg. destruct Hg as (_ & _ & _ & _ & _ & _ & _ & _ & _ & _ & Hb & _). unfold enc_grain.
  assert (exists body, enc_body (g_body g) = Ok body) as [body ->].
  { destruct (g_body g) as [|v|c|a|a|]; cbn [enc_body gbody_ok] in *; try (eexists; reflexivity).
    - destruct Hb as (H1 & H2 & _). unfold enc_vghd, to_enum. rewrite H1, H2. eexists; reflexivity.
    - destruct Hb as (H1 & H2 & _). unfold enc_cghd, to_enum. rewrite H1, H2. eexists; reflexivity.
    - destruct Hb as (H1 & _). unfold enc_aghd, to_enum. rewrite H1. eexists; reflexivity.
    - destruct Hb as (H1 & _). unfold enc_cahd, to_enum. rewrite H1. eexists; reflexivity. }
  eexists; reflexivity.
Qed.
