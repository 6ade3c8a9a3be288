(** Further consequences for whole files: normal forms, unknown blocks, loading modes, terminators, sync/async. *)
From Verif Require Import Base BaseProofs Utf8 Utf8Proofs GsfPrim GsfPrimProofs GsfPrimFacts GsfBlock GsfBlockProofs
  GsfDecode CogEnums GsfEncode GsfSpec GsfCodecProofs GsfEncodeProofs GsfFileSpec GsfTermProofs GsfFileProofs
  GsfFileFacts.
From Coq Require Import ZifyBool ZifyNat.
Ltac Zify.zify_post_hook ::= Z.div_mod_to_equations.

(** ---------------------------------------------------------------- normal form *)

Lemma norm_til_id t : til_normal t -> norm_til t = t.
Proof.
  unfold til_normal, norm_til. destruct t as [tag count n d drop]. cbn [tl_num tl_den tl_tag tl_count tl_drop].
  intros [[-> ->]|(Hn & Hd & HG)]; [reflexivity|].
  unfold rat_norm. replace (n =? 0) with false by lia. replace (d =? 0) with false by lia. cbn [orb].
  unfold mk_rat. rewrite HG, !Z.div_1_r. reflexivity.
Qed.

Lemma norm_comps_id l : forall off, tiled off l -> norm_comps off l = l.
Proof.
  induction l as [|c l IH]; intros off H; cbn [norm_comps tiled] in *; [reflexivity|].
  destruct H as [<- H]. rewrite IH by exact H. destruct c; reflexivity.
Qed.

Lemma norm_ratio_id r : match r with Some x => fst x <> 0 | None => True end -> norm_ratio r = r.
Proof. destruct r as [[n d]|]; cbn [norm_ratio fst]; [|reflexivity]. intros H. replace (n =? 0) with false by lia. reflexivity. Qed.

Theorem normal_form_id major g : normal_form major g -> meta_of major g = meta_raw g.
Proof.
  intros (H7 & HT & HB). unfold meta_of, meta_raw.
  assert (norm_ts major (g_origin g) = g_origin g /\ norm_ts major (g_sync g) = g_sync g) as [-> ->].
  { unfold norm_ts. destruct (major =? 7) eqn:E; [|split; reflexivity].
    destruct (H7 ltac:(lia)). split; apply Z.abs_eq; lia. }
  assert (norm_tils (g_tils g) = match g_tils g with [] => None | l => Some l end) as ->.
  { unfold norm_tils. assert (map norm_til (g_tils g) = g_tils g) as HM.
    { induction HT as [|t l Ht Hl IH]; [reflexivity|]. cbn [map]. rewrite norm_til_id, IH by exact Ht. reflexivity. }
    rewrite HM. destruct (g_tils g); reflexivity. }
  destruct (g_body g) as [|v|c|a|a|]; try reflexivity.
  - destruct HB as (H1 & H2 & H3). f_equal. f_equal. unfold norm_vmeta.
    rewrite (norm_comps_id _ _ H1), (norm_ratio_id _ H2), (norm_ratio_id _ H3). destruct v; reflexivity.
  - destruct HB as (H1 & H2 & H3). f_equal. f_equal. unfold norm_cmeta.
    assert (norm_key major (c_key c) = c_key c) as ->.
    { unfold norm_key. destruct (major <? 9) eqn:E; [|reflexivity]. specialize (H1 ltac:(lia)).
      destruct (c_key c); [reflexivity|tauto]. }
    assert (norm_temporal major (c_temporal c) = c_temporal c) as ->.
    { unfold norm_temporal. destruct (major <? 9) eqn:E.
      - specialize (H1 ltac:(lia)). destruct (c_temporal c); [reflexivity|tauto].
      - specialize (H2 ltac:(lia)). destruct (c_temporal c) as [t|]; [|reflexivity].
        replace (t =? 2147483647) with false by (destruct (Z.eqb_spec t 2147483647); [subst; congruence|reflexivity]).
        reflexivity. }
    assert (match units c with [] => None | l => Some l end = c_units c) as ->.
    { unfold units. destruct (c_units c) as [[|x l]|]; try reflexivity. congruence. }
    destruct c; reflexivity.
Qed.

(** One encoded grain placed anywhere in any input. *)
Theorem grain_roundtrip k major local g bs pre rest strict fwd :
  u16 local -> grain_ok g -> enc_grain major local g = Ok bs -> zlen bs < 4294967296 ->
  k_ids k = None ->
  exists i, grain_turn k major (mkFile (pre ++ bs ++ rest) 0 strict fwd) (zlen pre) =
              Ok (TYield i, zlen pre + zlen bs) /\
    view (pre ++ bs ++ rest) i = mode_data (k_mode k) (meta_of major g, opt_bytes (g_data g), local) /\
    payload_form k (pre ++ bs ++ rest) (i_data i).
Proof.
  intros Hl Hg HE Hs Hk. destruct (enc_grain_payload major local g bs Hg HE) as (pl & off & -> & HP).
  rewrite enc_block_len in Hs by reflexivity. assert (small_payload pl) as HS by exact Hs.
  set (f := mkFile (pre ++ enc_block T_grai pl ++ rest) 0 strict fwd).
  assert (At f (zlen pre) (enc_block T_grai pl ++ rest)) as HA by apply At_mid.
  eexists. split; [|split].
  - rewrite (grain_turn_grain k major f _ rest local g pl off HA Hl Hg HS HP). rewrite Hk. cbn [ids_ok]. reflexivity.
  - unfold view. cbn [i_meta i_data i_local].
    rewrite payload_of_loaded by (eapply grai_data_at; eassumption). destruct (k_mode k); reflexivity.
  - apply payload_of_form. eapply grai_data_at; eassumption.
Qed.

(** ---------------------------------------------------------------- unknown blocks *)

Fixpoint contents_sk (concat : bool) (major : Z) (ps : list skeleton) : list shown :=
  match ps with
  | [] => []
  | KGrain local g :: t => (meta_of major g, opt_bytes (g_data g), local) :: contents_sk concat major t
  | KNone :: t => contents_sk concat major t
  | KEnd :: t => if concat then contents_sk concat major t else []
  | KFile major' _ _ :: t => if concat then contents_sk concat major' t else []
  end.

Fixpoint final_sk (concat : bool) (s : sess) (ps : list skeleton) : sess :=
  match ps with
  | [] => s
  | KGrain _ _ :: t | KNone :: t => final_sk concat s t
  | KEnd :: t => if concat then final_sk concat s t else s
  | KFile major minor h :: t => if concat then final_sk concat (mkSess major minor (Some h)) t else s
  end.

Lemma contents_skeleton concat : forall ps major qs, map skel (filter keep ps) = map skel (filter keep qs) ->
  contents concat major ps = contents concat major qs.
Proof.
  assert (forall ps major, contents concat major ps = contents_sk concat major (map skel (filter keep ps))) as H.
  { induction ps as [|pc ps IH]; intros major; [reflexivity|].
    destruct pc; cbn [filter keep map skel contents contents_sk]; rewrite ?IH; reflexivity. }
  intros ps major qs E. rewrite !H, E. reflexivity.
Qed.

Lemma final_skeleton concat : forall ps s qs, map skel (filter keep ps) = map skel (filter keep qs) ->
  final_sess concat s ps = final_sess concat s qs.
Proof.
  assert (forall ps s, final_sess concat s ps = final_sk concat s (map skel (filter keep ps))) as H.
  { induction ps as [|pc ps IH]; intros s; [reflexivity|].
    destruct pc; cbn [filter keep map skel final_sess final_sk]; rewrite ?IH; reflexivity. }
  intros ps s qs E. rewrite !H, E. reflexivity.
Qed.

Theorem unknown_blocks k x y strict fwd : gsf_ok x -> gsf_ok y -> same_logical x y ->
  exists s0 s v, decodes_to k strict fwd (gsf_bytes x) s0 s v /\ decodes_to k strict fwd (gsf_bytes y) s0 s v.
Proof.
  intros HX HY (E1 & E2 & E3 & E4).
  destruct (decode_contents k x [] strict fwd HX ltac:(congruence)) as (l & D & V & F).
  destruct (decode_contents k y [] strict fwd HY ltac:(congruence)) as (l' & D' & V' & F').
  rewrite app_nil_r in *.
  exists (gsf_sess x), (final_sess (k_concat k) (gsf_sess x) (gf_pieces x)).
  exists (map (mode_data (k_mode k)) (select (k_ids k) (contents (k_concat k) (gf_major x) (gf_pieces x)))).
  split.
  - exists l. auto.
  - exists l'. assert (gsf_sess y = gsf_sess x) as ES by (unfold gsf_sess; congruence).
    rewrite ES in D'. split; [|split; [|exact F']].
    + rewrite D'. do 3 f_equal. symmetry. f_equal. now apply final_skeleton.
    + rewrite V'. f_equal. f_equal. rewrite <- E1. symmetry. now apply contents_skeleton.
Qed.

(** Inserting a block at top level. *)
Lemma Pieces_insert a : forall major c b, unknown_in [T_grai] c -> small_payload (snd c) ->
  Pieces major (a ++ b) -> Pieces major (a ++ POther c :: b).
Proof.
  induction a as [|pc a IH]; intros major c b HU HS H; cbn [app] in *; [constructor; assumption|].
  inversion H; subst; constructor; auto.
Qed.

Theorem insert_ok x a b c : gsf_ok x -> gf_pieces x = a ++ b -> unknown_in [T_grai] c -> small_payload (snd c) ->
  gsf_ok (with_pieces x (a ++ POther c :: b)) /\ same_logical x (with_pieces x (a ++ POther c :: b)).
Proof.
  intros (HH & HP) E HU HS. split.
  - split; [exact HH|]. cbn [with_pieces gf_major gf_pieces]. apply Pieces_insert; try assumption. rewrite <- E. exact HP.
  - unfold same_logical. cbn [with_pieces gf_major gf_minor gf_head gf_pieces]. repeat split.
    rewrite E, !filter_app. cbn [filter keep]. reflexivity.
Qed.

(** ---------------------------------------------------------------- loading modes and kinds of input *)

Lemma mode_data_meta m x : (fst (fst (mode_data m x)), snd (mode_data m x)) = (fst (fst x), snd x).
Proof. destruct m; reflexivity. Qed.

Theorem modes_agree k k' x strict fwd strict' fwd' : gsf_ok x ->
  k_ids k = k_ids k' -> k_concat k = k_concat k' ->
  exists l l' s,
    decode_file k (mkFile (gsf_bytes x) 0 strict fwd) = Ok (gsf_sess x, (l, s, Done)) /\
    decode_file k' (mkFile (gsf_bytes x) 0 strict' fwd') = Ok (gsf_sess x, (l', s, Done)) /\
    map i_meta l = map i_meta l' /\ map i_local l = map i_local l' /\
    (k_mode k <> LoadNever -> k_mode k' <> LoadNever ->
       map (view (gsf_bytes x)) l = map (view (gsf_bytes x)) l') /\
    (k_mode k = LoadNever -> Forall (fun i => loaded (gsf_bytes x) (i_data i) = []) l) /\
    Forall (fun i => payload_form k (gsf_bytes x) (i_data i)) l /\ Forall (fun i => payload_form k' (gsf_bytes x) (i_data i)) l'.
Proof.
  intros HX EI EC.
  destruct (decode_contents k x [] strict fwd HX ltac:(congruence)) as (l & D & V & F).
  destruct (decode_contents k' x [] strict' fwd' HX ltac:(congruence)) as (l' & D' & V' & F').
  rewrite app_nil_r in *. rewrite <- EI, <- EC in *.
  set (c := select (k_ids k) (contents (k_concat k) (gf_major x) (gf_pieces x))) in *.
  exists l, l', (final_sess (k_concat k) (gsf_sess x) (gf_pieces x)).
  assert (forall m (l : list item), map (view (gsf_bytes x)) l = map (mode_data m) c ->
          map i_meta l = map (fun y => fst (fst y)) c /\ map i_local l = map (fun y => snd y) c) as HM.
  { intros m l0 H. split.
    - transitivity (map (fun y => fst (fst y)) (map (view (gsf_bytes x)) l0)); [rewrite map_map; reflexivity|].
      rewrite H, map_map. apply map_ext. intros y. destruct m; reflexivity.
    - transitivity (map (fun y : shown => snd y) (map (view (gsf_bytes x)) l0)); [rewrite map_map; reflexivity|].
      rewrite H, map_map. apply map_ext. intros y. destruct m; reflexivity. }
  destruct (HM _ _ V) as [M1 L1]. destruct (HM _ _ V') as [M2 L2].
  split; [exact D|]. split; [exact D'|]. split; [congruence|]. split; [congruence|].
  split.
  { intros N N'. rewrite V, V'. apply map_ext. intros y.
    destruct (k_mode k), (k_mode k'); try reflexivity; congruence. }
  split; [|split; assumption].
  intros N. rewrite N in V. clear - V. revert l V. induction c as [|y c IH]; intros [|i l] H; try discriminate; [constructor|].
  cbn [map] in H. unfold view at 1 in H. constructor; [|apply IH; congruence]. cbn [mode_data] in H. congruence.
Qed.

(** ---------------------------------------------------------------- terminators *)

Theorem terminator_stops k x a b rest strict fwd : gsf_ok x -> gf_pieces x = a ++ PEnd :: b -> k_concat k = false ->
  exists l,
    decode_file k (mkFile (gsf_bytes x ++ rest) 0 strict fwd) = Ok (gsf_sess x, (l, gsf_sess x, Done)) /\
    map (view (gsf_bytes x ++ rest)) l =
    map (mode_data (k_mode k)) (select (k_ids k) (contents false (gf_major x) a)).
Proof.
  intros HX E EC. 
  destruct (decode_contents k x rest strict fwd HX) as (l & D & V & F).
  { intros _. unfold stops. rewrite EC, E, existsb_app. cbn [existsb is_stop negb andb]. apply orb_true_r. }
  exists l. rewrite EC, E in *.
  assert (contents false (gf_major x) (a ++ PEnd :: b) = contents false (gf_major x) a) as HC.
  { clear. generalize (gf_major x). induction a as [|pc a IH]; intros m; [reflexivity|].
    destruct pc; cbn [app contents]; rewrite ?IH; reflexivity. }
  assert (forall s, final_sess false s (a ++ PEnd :: b) = s) as HF.
  { clear. induction a as [|pc a IH]; intros s; [reflexivity|]. destruct pc; cbn [app final_sess]; rewrite ?IH; reflexivity. }
  rewrite HC in V. rewrite HF in D. auto.
Qed.

Theorem terminator_transparent k x a b strict fwd : gsf_ok x -> gf_pieces x = a ++ PEnd :: b -> k_concat k = true ->
  exists s v, decodes_to k strict fwd (gsf_bytes x) (gsf_sess x) s v /\
              decodes_to k strict fwd (gsf_bytes (with_pieces x (a ++ b))) (gsf_sess x) s v.
Proof.
  intros (HH & HP) E EC.
  assert (gsf_ok (with_pieces x (a ++ b))) as HY.
  { split; [exact HH|]. cbn [with_pieces gf_major gf_pieces]. rewrite E in HP. clear - HP. revert HP.
    generalize (gf_major x). induction a as [|pc a IH]; intros m HP; cbn [app] in *; inversion HP; subst; try assumption;
      constructor; auto. }
  destruct (decode_contents k x [] strict fwd (conj HH HP) ltac:(congruence)) as (l & D & V & F).
  destruct (decode_contents k (with_pieces x (a ++ b)) [] strict fwd HY ltac:(congruence)) as (l' & D' & V' & F').
  rewrite app_nil_r in *. rewrite EC, E in *. cbn [with_pieces gf_major gf_pieces] in *.
  change (gsf_sess (with_pieces x (a ++ b))) with (gsf_sess x) in D'.
  assert (forall m, contents true m (a ++ PEnd :: b) = contents true m (a ++ b)) as HC.
  { clear. induction a as [|pc a IH]; intros m; [reflexivity|].
    destruct pc; cbn [app contents]; rewrite ?IH; reflexivity. }
  assert (forall s, final_sess true s (a ++ PEnd :: b) = final_sess true s (a ++ b)) as HF.
  { clear. induction a as [|pc a IH]; intros s; [reflexivity|]. destruct pc; cbn [app final_sess]; rewrite ?IH; reflexivity. }
  eexists _, _. split; [exists l; split; [exact D|split; [exact V|exact F]]|].
  exists l'. rewrite HF, HC. auto.
Qed.

Theorem sync_async_agree k k' x strict fwd strict' fwd' : gsf_ok x ->
  k_ids k = k_ids k' -> k_concat k = k_concat k' -> k_mode k = k_mode k' ->
  exists l l' s,
    decode_file k (mkFile (gsf_bytes x) 0 strict fwd) = Ok (gsf_sess x, (l, s, Done)) /\
    decode_file k' (mkFile (gsf_bytes x) 0 strict' fwd') = Ok (gsf_sess x, (l', s, Done)) /\
    map (view (gsf_bytes x)) l = map (view (gsf_bytes x)) l'.
Proof.
  intros HX EI EC EM.
  destruct (decode_contents k x [] strict fwd HX ltac:(congruence)) as (l & D & V & F).
  destruct (decode_contents k' x [] strict' fwd' HX ltac:(congruence)) as (l' & D' & V' & F').
  rewrite app_nil_r in *. rewrite <- EI, <- EC, <- EM in *.
  eexists l, l', _. split; [exact D|]. split; [exact D'|]. congruence.
Qed.
