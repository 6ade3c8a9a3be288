(** Every size field the encoder writes is exact. *)
From Verif Require Import Base BaseProofs Utf8 Utf8Proofs GsfPrim GsfPrimProofs GsfBlock GsfBlockProofs
  GsfDecode CogEnums GsfEncode GsfSpec GsfCodecProofs GsfEncodeProofs GsfEncState GsfEncSpec GsfEncStateProofs GsfEncSession
  GsfEncInv GsfEncFile GsfEncDecodeSpec GsfEncDecode GsfEncFacts GsfSplitSpec.
From Coq Require Import Permutation ZifyBool ZifyNat.
Ltac Zify.zify_post_hook ::= Z.div_mod_to_equations.

Lemma land255 v : Z.land v 255 = v mod 256.
Proof. exact (Z.land_ones v 8 ltac:(lia)). Qed.
Lemma shr8 v : Z.shiftr v 8 = v / 256.
Proof. exact (Z.shiftr_div_pow2 v 8 ltac:(lia)). Qed.

Lemma enc_uint4_le v : 0 <= v < 4294967296 ->
  exists a b c d, enc_uint 4 v = [a; b; c; d] /\ le32 a b c d = v.
Proof.
  intros H. cbn [enc_uint]. rewrite !land255, !shr8. do 4 eexists. split; [reflexivity|]. unfold le32. lia.
Qed.

Lemma list4 (t : str) : zlen t = 4 -> exists a b c d, t = [a; b; c; d].
Proof.
  intros H. destruct t as [|a [|b [|c [|d [|e t]]]]]; try discriminate; [eauto 6|].
  exfalso. unfold zlen in H. cbn [length] in H. lia.
Qed.

Lemma split_step k t pl rest : zlen t = 4 -> small_payload pl ->
  split_blocks (S k) (enc_block t pl ++ rest) =
  match split_blocks k rest with Some bl => Some ((t, pl) :: bl) | None => None end.
Proof.
  intros Ht Hs. apply list4 in Ht as (a & b & c & d & ->). unfold small_payload in Hs. pose proof (zlen_nonneg pl).
  destruct (enc_uint4_le (8 + zlen pl) ltac:(lia)) as (s0 & s1 & s2 & s3 & E & EL).
  unfold enc_block. rewrite E. cbn [app split_blocks]. rewrite EL. replace (8 + zlen pl - 8) with (zlen pl) by lia.
  rewrite zlen_app. pose proof (zlen_nonneg rest).
  replace ((0 <=? zlen pl) && (zlen pl <=? zlen pl + zlen rest)) with true by lia.
  rewrite zskip_app, zfirst_app. reflexivity.
Qed.

Lemma split_blocks_ok bl : tags4 bl -> smalls bl -> forall fuel, (length bl < fuel)%nat -> split_blocks fuel (blocks bl) = Some bl.
Proof.
  induction bl as [|[t pl] bl IH]; intros HT HS fuel HF.
  - destruct fuel; reflexivity.
  - destruct fuel as [|k]; [lia|]. rewrite blocks_cons, split_step; [|exact (Forall_inv HT)|exact (Forall_inv HS)].
    rewrite IH; [reflexivity|exact (Forall_inv_tail HT)|exact (Forall_inv_tail HS)|cbn [length] in HF; lia].
Qed.

Lemma blocks_length bl : tags4 bl -> (length bl <= length (blocks bl))%nat.
Proof.
  intros H. induction H as [|[t pl] bl Ht H IH]; [cbn [length]; lia|]. rewrite blocks_cons, app_length. cbn [length fst] in *.
  pose proof (enc_block_len t pl Ht) as E. pose proof (zlen_nonneg pl). unfold zlen in *. lia.
Qed.

Lemma split_ok bl : tags4 bl -> zlen (blocks bl) < 4294967296 -> split (blocks bl) = Some bl.
Proof.
  intros HT HL. unfold split. apply split_blocks_ok; [exact HT|apply blocks_smalls; assumption|].
  pose proof (blocks_length bl HT). lia.
Qed.

Lemma node_exact major t fixed bl off : fixed_size major t = Some off -> zlen fixed = off -> tags4 bl ->
  zlen (fixed ++ blocks bl) < 4294967296 -> Forall (Exact major) bl -> Exact major (t, fixed ++ blocks bl).
Proof.
  intros HF HL HT HS HE. pose proof (zlen_nonneg fixed). pose proof (zlen_nonneg (blocks bl)). rewrite zlen_app in HS.
  apply (Ex_node major t _ off bl HF).
  - rewrite zlen_app. lia.
  - rewrite <- HL, zskip_app. apply split_ok; [exact HT|lia].
  - exact HE.
Qed.

Lemma tag_blocks_exact major l : Forall (Exact major) (map tag_block l).
Proof. apply Forall_map, Forall_forall. intros kv _. apply Ex_leaf. reflexivity. Qed.

Lemma flow_exact major fl : Forall (Exact major) (flow_children fl).
Proof. destruct fl; cbn [flow_children]; repeat constructor. Qed.

Lemma enc_segm_payload_exact major s c : eseg_uuids s -> zlen (snd (segm_block (s, c))) < 4294967296 ->
  Exact major (segm_block (s, c)).
Proof.
  intros [H1 H2] HL. unfold segm_block in *. cbn [fst snd] in *. apply (node_exact _ _ _ _ 26); try assumption.
  - reflexivity.
  - unfold segm_fixed, enc_uuid. rewrite !zlen_app, enc_uint_len, enc_sint_len. lia.
  - unfold segm_children. apply Forall_app. split; [apply flow_tags4|apply tag_blocks_tags4].
  - unfold segm_children. apply Forall_app. split; [apply flow_exact|apply tag_blocks_exact].
Qed.

Lemma head_children_tags4 segs tags : tags4 (head_children segs tags).
Proof.
  unfold head_children. apply Forall_app. split; [|apply tag_blocks_tags4]. apply Forall_map, Forall_forall. reflexivity.
Qed.

(** The head block. *)
Theorem head_exact major id created segs tags : head_sized id created segs tags ->
  exists pl, enc_head id created segs tags = enc_block T_head pl /\ Exact major (T_head, pl) /\
    exists sl tl, split (zskip 23 pl) = Some (sl ++ tl) /\
      length sl = length segs /\ Forall (fun b => fst b = T_segm) sl /\
      length tl = length tags /\ Forall (fun b => fst b = T_tag) tl.
Proof.
  intros (H1 & H2 & H3). rewrite (enc_head_block id created segs tags H1 H2) in *. eexists. split; [reflexivity|].
  rewrite enc_block_len in H3 by reflexivity. rewrite app_assoc in *.
  assert (zlen (enc_uuid id ++ enc_datetime created) = 23) as HF by (rewrite zlen_app, enc_datetime_len; unfold enc_uuid; lia).
  assert (zlen (blocks (head_children segs tags)) < 4294967296) as HB.
  { rewrite zlen_app in H3. lia. }
  split.
  - apply (node_exact _ _ _ _ 23); [reflexivity|exact HF|apply head_children_tags4|lia|].
    pose proof (blocks_smalls _ (head_children_tags4 segs tags) HB) as HS. unfold head_children in *.
    apply Forall_app in HS as [HS _]. apply Forall_app. split; [|apply tag_blocks_exact].
    unfold smalls in HS. rewrite Forall_map in HS. apply Forall_map. rewrite Forall_forall in *. intros [s c] HI.
    apply enc_segm_payload_exact; [exact (H2 _ HI)|]. specialize (HS _ HI). unfold small_payload in HS. lia.
  - exists (map segm_block segs), (map tag_block tags). rewrite <- HF at 1. rewrite zskip_app.
    split; [apply split_ok; [apply head_children_tags4|exact HB]|].
    rewrite !map_length. repeat split; apply Forall_map, Forall_forall; reflexivity.
Qed.

Lemma body_exact major b : zlen (blocks (body_children b)) < 4294967296 -> Forall (Exact major) (body_children b).
Proof.
  assert (forall t pl, zlen t = 4 -> zlen (blocks [(t, pl)]) = 8 + zlen pl) as HB.
  { intros t pl Ht. rewrite blocks_cons, zlen_app, enc_block_len by exact Ht. change (zlen (blocks [])) with 0. lia. }
  intros HL. destruct b as [|v|c|a|a|]; cbn [body_children] in *; [constructor| | |repeat constructor..];
    rewrite HB in HL by reflexivity; (constructor; [|constructor]).
  - apply (node_exact _ _ _ _ 36); [reflexivity|apply vghd_fixed_len|apply comp_children_tags4|lia|].
    unfold comp_children. destruct (v_comps v); [constructor|]. constructor; [apply Ex_leaf; reflexivity|constructor].
  - apply (node_exact _ _ _ _ 29); [reflexivity|apply cghd_fixed_len|apply unof_children_tags4|lia|].
    unfold unof_children. destruct (units c); repeat constructor.
Qed.

(** A grain block: exactly a grain header and the data. *)
Theorem grain_exact major lg : grain_sized major lg ->
  exists pl gp, gbytes major lg = enc_block T_grai pl /\ small_payload pl /\ Exact major (T_grai, pl) /\
    split (zskip 2 pl) = Some [(T_gbhd, gp); (T_grdt, opt_bytes (g_data (snd lg)))].
Proof.
  destruct lg as [l g]. intros (H1 & H2 & H3 & [bs HE] & H5). cbn [fst snd] in *.
  assert (gbytes major (l, g) = bs) as EG by (unfold gbytes; cbn [fst snd]; now rewrite HE). rewrite EG in *.
  pose proof (enc_grain_block major l g bs H1 H2 H3 HE) as EB. rewrite EB in *. rewrite enc_block_len in H5 by reflexivity.
  exists (enc_uint 2 l ++ blocks (grai_children major g)), (gbhd_fixed major g ++ blocks (gbhd_children g)).
  assert (zlen (enc_uint 2 l) = 2) as H2l by (rewrite enc_uint_len; reflexivity).
  pose proof H5 as H5'. rewrite zlen_app in H5'.
  assert (tags4 (grai_children major g)) as HT by (repeat constructor).
  split; [reflexivity|]. split; [exact H5|]. split.
  - apply (node_exact _ _ _ _ 2); [reflexivity|exact H2l|exact HT|lia|]. unfold grai_children.
    constructor; [|constructor; [apply Ex_leaf; reflexivity|constructor]].
    unfold grai_children in H5'. rewrite !blocks_cons, !zlen_app, !enc_block_len in H5' by reflexivity.
    pose proof (zlen_nonneg (opt_bytes (g_data g))).
    assert (zlen (gbhd_fixed major g ++ blocks (gbhd_children g)) < 4294967296) as HG.
    { match type of H5' with context [8 + zlen (opt_bytes _) + ?x] => assert (0 <= x) by apply zlen_nonneg end.
      match type of H5' with context [8 + ?o + _] => assert (0 <= o) by apply zlen_nonneg end. lia. }
    assert (tags4 (gbhd_children g)) as HT2.
    { unfold gbhd_children. apply Forall_app. split; [apply tils_tags4|apply (body_tags4 (g_body g)), body_children_BB]. }
    apply (node_exact _ _ _ _ (if major =? 7 then 84 else 70)); [reflexivity|apply gbhd_fixed_len; assumption|exact HT2|exact HG|].
    unfold gbhd_children in *. apply Forall_app. split.
    + unfold tils_children. destruct (g_tils g); repeat constructor.
    + apply body_exact. rewrite blocks_app, !zlen_app in HG. pose proof (zlen_nonneg (gbhd_fixed major g)).
      pose proof (zlen_nonneg (blocks (tils_children (g_tils g)))). lia.
  - rewrite <- H2l at 1. rewrite zskip_app. apply split_ok; [exact HT|]. change (zlen (blocks (grai_children major g)) < 4294967296). lia.
Qed.

(** The whole file: 12 bytes of header, then exactly one head block, one grain block per grain, the terminator. *)
Theorem file_exact e segs tags gs : head_sized (e_id e) (e_created e) segs tags -> Forall (grain_sized (e_major e)) gs ->
  sized_file (e_major e) (length gs) (complete_file e segs tags gs).
Proof.
  intros HH HG. destruct (head_exact (e_major e) _ _ _ _ HH) as (hp & EH & XH & _).
  assert (exists gl, flat_map (gbytes (e_major e)) gs = blocks gl /\ length gl = length gs /\ smalls gl /\
            Forall (fun b => fst b = T_grai) gl /\ Forall (Exact (e_major e)) gl) as (gl & G1 & G2 & G3 & G4 & G5).
  { clear - HG. induction HG as [|lg gs Hg HG (gl & G1 & G2 & G3 & G4 & G5)]; [exists []; repeat constructor|].
    destruct (grain_exact _ _ Hg) as (pl & gp & E & S & X & _). exists ((T_grai, pl) :: gl).
    split; [cbn [flat_map]; rewrite E, G1; reflexivity|]. split; [cbn [length]; now rewrite G2|]. split; [constructor; [exact S|exact G3]|].
    split; (constructor; [first [reflexivity|exact X]|assumption]). }
  assert (zlen (enc_file_header (e_major e) (e_minor e)) = 12) as HF.
  { unfold enc_file_header. rewrite !zlen_app, !enc_uint_len. reflexivity. }
  exists (enc_file_header (e_major e) (e_minor e)), (blocks ((T_head, hp) :: gl)), hp, gl.
  split; [|split; [exact HF|split; [|split; [exact G2|split; [exact G4|constructor; assumption]]]]].
  - unfold complete_file, file_so_far. rewrite EH, G1, blocks_cons, <- !app_assoc. reflexivity.
  - assert (tags4 ((T_head, hp) :: gl)) as HT.
    { constructor; [reflexivity|]. eapply Forall_impl; [|exact G4]. intros [t pl] E. cbn [fst] in *. subst t. reflexivity. }
    unfold split. apply split_blocks_ok; [exact HT| |].
    + constructor; [|exact G3]. cbn [snd]. destruct HH as (_ & _ & HL). rewrite EH, enc_block_len in HL by reflexivity. exact HL.
    + pose proof (blocks_length _ HT). lia.
Qed.

Lemma of_segment_filter l gs : map (pair l) (of_segment l gs) = filter (fun x => fst x =? l) gs.
Proof.
  unfold of_segment. induction gs as [|[k g] gs IH]; [reflexivity|]. cbn [filter fst]. destruct (k =? l) eqn:E; [|exact IH].
  cbn [map snd]. rewrite IH. apply Z.eqb_eq in E. now subst k.
Qed.

Lemma filter_perm {A} (f : A -> bool) l : Permutation (filter f l ++ filter (fun x => negb (f x)) l) l.
Proof.
  induction l as [|x l IH]; [reflexivity|]. cbn [filter]. destruct (f x); cbn [negb app]; [now apply perm_skip|].
  rewrite <- Permutation_middle. now apply perm_skip.
Qed.

(** Writing segment by segment only changes the order. *)
Lemma segment_perm segs : forall gs, NoDup (map st_local segs) -> Forall (fun x => In (fst x) (map st_local segs)) gs ->
  Permutation (segment_by_segment segs gs) gs.
Proof.
  induction segs as [|s segs IH]; intros gs HN HF; cbn [map] in *.
  - destruct HF as [|x gs []]. reflexivity.
  - inversion HN as [|? ? HS HN']; subst. unfold segment_by_segment. cbn [flat_map]. rewrite of_segment_filter.
    fold (segment_by_segment segs gs). rewrite <- (filter_perm (fun x => fst x =? st_local s) gs) at 3.
    apply Permutation_app_head. rewrite <- (IH (filter (fun x => negb (fst x =? st_local s)) gs) HN').
    + unfold segment_by_segment. assert (forall t, In t segs -> of_segment (st_local t) gs =
        of_segment (st_local t) (filter (fun x => negb (fst x =? st_local s)) gs)) as HE.
      { intros t Ht. unfold of_segment. f_equal. clear - HS Ht. induction gs as [|x gs IH]; [reflexivity|]. cbn [filter].
        assert (st_local t <> st_local s) by (intros E; apply HS; rewrite <- E; now apply in_map).
        destruct (fst x =? st_local t) eqn:E1, (fst x =? st_local s) eqn:E2; cbn [negb filter]; rewrite ?E1, ?IH; try reflexivity. lia. }
      clear - HE. induction segs as [|t segs IH]; [reflexivity|]. cbn [flat_map]. rewrite (HE t (or_introl eq_refl)).
      apply Permutation_app_head, IH. intros u Hu. apply HE. now right.
    + rewrite Forall_forall in *. intros x HI. apply filter_In in HI as [HI E]. destruct (HF _ HI) as [EE|HH]; [|exact HH].
      rewrite EE, Z.eqb_refl in E. discriminate E.
Qed.

Lemma head_sized_counts id created c c' segs tags : head_sized id created (with_counts c segs) tags ->
  head_sized id created (with_counts c' segs) tags.
Proof.
  intros (H1 & H2 & H3). split; [exact H1|]. split; [|now rewrite (enc_head_len_counts _ _ c' c)].
  unfold with_counts in *. rewrite Forall_map in *. exact H2.
Qed.

Lemma sized_encodable major gs : Forall (grain_sized major) gs -> Forall (encodable major) gs.
Proof. intros H. eapply Forall_impl; [|exact H]. intros lg (_ & _ & _ & HE & _). exact HE. Qed.

(** Everything written at the end. *)
Theorem batch_sized e ops logs hist : reachable e -> idle e -> batch e ops hist -> GivenAll (keys_of e) ops logs ->
  prior (e_out e) = [] -> head_sized (e_id e) (e_created e) (with_counts (fun _ => 0) (e_segs e)) (e_tags e) ->
  Forall (grain_sized (e_major e)) (waiting (e_segs e) ++ logs) ->
  sized_file (e_major e) (length (waiting (e_segs e) ++ logs)) (o_data (e_out (run_ops e hist))).
Proof.
  intros HR HI HB HGV HP HH HG.
  rewrite (batch_complete e ops logs hist HR HI HB HGV (sized_encodable _ _ HG)), HP. cbn [app].
  assert (Permutation (segment_by_segment (e_segs e) (waiting (e_segs e) ++ logs)) (waiting (e_segs e) ++ logs)) as HPm.
  { apply segment_perm; [apply reachable_inv in HR as [HR _]; apply (si_nodup _ _ HR)|]. apply Forall_app. split.
    - unfold waiting. apply Forall_flat_map, Forall_forall. intros s Hs. apply Forall_map, Forall_forall. intros g _. cbn [fst].
      now apply in_map.
    - pose proof (given_known _ _ _ HGV) as HK. unfold keys_of in HK. rewrite map_map in HK. exact HK. }
  rewrite <- (Permutation_length HPm). apply file_exact.
  - eapply head_sized_counts. exact HH.
  - eapply Permutation_Forall; [symmetry; exact HPm|exact HG].
Qed.

(** Streaming. *)
Theorem stream_sized e async o c ops logs : streams e async o c -> (async = false -> from_encoder e) ->
  Forall (client_of async (length (e_sess e))) ops -> SentAll (e_major e) (keys_of e) (length (e_sess e)) ops logs ->
  prior (e_out e) = [] -> head_sized (e_id e) (e_created e) (with_counts (fun _ => 0) (e_segs e)) (e_tags e) ->
  Forall (grain_sized (e_major e)) (waiting (e_segs e) ++ logs) ->
  sized_file (e_major e) (length (waiting (e_segs e) ++ logs)) (o_data (e_out (run_ops e (o :: ops ++ [c])))).
Proof.
  intros HS HF HC HL HP HH HG. assert (Forall (encodable (e_major e)) (waiting (e_segs e))) as HE.
  { apply sized_encodable in HG. apply Forall_app in HG. apply HG. }
  rewrite (stream_complete e async o c ops logs HS HE HF HC HL), HP. cbn [app].
  apply file_exact; [eapply head_sized_counts; exact HH|exact HG].
Qed.
