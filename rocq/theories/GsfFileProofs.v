(** Decoding whole well-formed files. *)
From Verif Require Import Base BaseProofs Utf8 Utf8Proofs GsfPrim GsfPrimProofs GsfBlock GsfBlockProofs
  GsfDecode CogEnums GsfEncode GsfSpec GsfCodecProofs GsfFileSpec GsfTermProofs.
From Coq Require Import ZifyBool ZifyNat.
Ltac Zify.zify_post_hook ::= Z.div_mod_to_equations.

Lemma At_pos f p l : At f p l -> 0 <= p.
Proof. intros [H _]. lia. Qed.

Lemma raw_tag4 t tag : raw_tag t tag -> zlen t = 4. Proof. intros H; apply H. Qed.

(** Searching for a block skips well-formed blocks with other tags. *)
Lemma enter_loop_skip want f : forall pre fuel p rest tag t pl, Forall (unknown_in [want]) pre ->
  Forall (fun c => small_payload (snd c)) pre -> (length pre < fuel)%nat ->
  At f p (blocks pre ++ enc_block t pl ++ rest) -> raw_tag t tag -> tag = want -> small_payload pl ->
  enter_loop fuel (Some want) false (f_base f + p) f p =
  Ok (mkBlk (f_base f + p + zlen (blocks pre)) (8 + zlen pl) want, p + zlen (blocks pre) + 8).
Proof.
  induction pre as [|[t' pl'] pre IH]; intros fuel p rest tag t pl HU HS Hf HA Ht -> Hs.
  - destruct fuel as [|k]; [cbn in Hf; lia|]. cbn [enter_loop blocks flat_map app] in *.
    rewrite (bind_run _ _ _ _ _ _ (read_tag_size_At _ _ _ _ _ _ HA Ht Hs)).
    rewrite zlist_eqb_refl. unfold ret. rewrite zlen_nil, !Z.add_0_r. reflexivity.
  - destruct fuel as [|k]; [cbn in Hf; lia|]. cbn [enter_loop].
    inversion HU as [|? ? (tag' & Ht' & Hn') HU']; subst. inversion HS as [|? ? Hs' HS']; subst. cbn [fst snd] in *.
    rewrite blocks_cons, <- app_assoc in HA.
    rewrite (bind_run _ _ _ _ _ _ (read_tag_size_At _ _ _ _ _ _ HA Ht' Hs')).
    replace (zlist_eqb tag' want) with false
      by (symmetry; apply zlist_eqb_neq; intros ->; apply Hn'; left; reflexivity).
    unfold bind, fseek, base_tell. pose proof (zlen_nonneg pl').
    replace (actual_size (8 + zlen pl')) with (8 + zlen pl') by (unfold actual_size; lia).
    replace (f_fwd f && (f_base f + p + (8 + zlen pl') - f_base f <? p + 8)) with false
      by (destruct (f_fwd f); cbn [andb]; [lia|reflexivity]).
    replace (f_base f + p + (8 + zlen pl') - f_base f) with (p + (8 + zlen pl')) by lia.
    apply At_advance in HA. pose proof (raw_tag4 _ _ Ht') as H4. rewrite enc_block_len in HA by assumption.
    erewrite (IH k) by (try eassumption; try reflexivity; cbn in Hf; lia).
    rewrite blocks_cons, zlen_app, enc_block_len by assumption. do 2 f_equal; [|lia]. f_equal. lia.
Qed.

Lemma blocks_count pre : tags4 pre -> zlen pre <= zlen (blocks pre).
Proof. apply blocks_length. Qed.

Lemma unknown_tags4 known pre : Forall (unknown_in known) pre -> tags4 pre.
Proof. intros H; induction H as [|c l (tag & Ht & _) Hl IH]; constructor; [apply Ht|assumption]. Qed.

Lemma enter_skip want f p pre t pl rest : Forall (unknown_in [want]) pre ->
  Forall (fun c => small_payload (snd c)) pre -> At f p (blocks pre ++ enc_block t pl ++ rest) ->
  raw_tag t want -> small_payload pl ->
  enter (Some want) false f p =
  Ok (mkBlk (f_base f + p + zlen (blocks pre)) (8 + zlen pl) want, p + zlen (blocks pre) + 8).
Proof.
  intros HU HS HA Ht Hs. unfold enter. rewrite (bind_run base_tell _ f p (f_base f + p) p) by reflexivity.
  eapply enter_loop_skip; try eassumption; [|reflexivity].
  pose proof (blocks_count pre (unknown_tags4 _ _ HU)). pose proof (At_len _ _ _ HA) as HL. destruct HA as [Hp _].
  rewrite zlen_app in HL. pose proof (zlen_nonneg (enc_block t pl ++ rest)).
  unfold fuel_of, zlen in *. lia.
Qed.

(** A searched block processed with a body that stays inside it. *)
Lemma with_block_skip {A} want f p pre t pl rest (body : blk -> rd A) v : Forall (unknown_in [want]) pre ->
  Forall (fun c => small_payload (snd c)) pre -> At f p (blocks pre ++ enc_block t pl ++ rest) ->
  raw_tag t want -> small_payload pl ->
  (forall f p rest b, At f p (pl ++ rest) -> b_start b + b_size b = f_base f + p + zlen pl -> b_tag b = want ->
   b_start b = f_base f + p - 8 -> exists q, body b f p = Ok (v f p, q) /\ p <= q <= p + zlen pl) ->
  with_block (Some want) false body f p =
  Ok (v f (p + zlen (blocks pre) + 8), p + zlen (blocks pre) + zlen (enc_block t pl)).
Proof.
  intros HU HS HA Ht Hs HB. unfold with_block.
  rewrite (bind_run _ _ _ _ _ _ (enter_skip want f p pre t pl rest HU HS HA Ht Hs)).
  pose proof (raw_tag4 _ _ Ht) as H4.
  assert (At f (p + zlen (blocks pre) + 8) (pl ++ rest)) as HA'.
  { apply At_advance in HA. unfold enc_block in HA. rewrite app_assoc, <- app_assoc in HA. apply At_advance in HA.
    rewrite zlen_app, enc_uint_len, H4 in HA. exact HA. }
  destruct (HB f _ rest (mkBlk (f_base f + p + zlen (blocks pre)) (8 + zlen pl) want) HA') as (q & Hq & Hr);
    [cbn [b_start b_size]; lia|reflexivity|cbn [b_start]; lia|].
  rewrite (bind_run _ _ _ _ _ _ Hq). pose proof (zlen_nonneg pl).
  erewrite bind_run; [|apply exit_block_at].
  - unfold ret. cbn [b_start b_size]. rewrite enc_block_len by assumption. unfold actual_size. do 2 f_equal. lia.
  - intros _. cbn [b_start b_size]. unfold actual_size. lia.
Qed.

(** ---------------------------------------------------------------- headers *)

Lemma version_ok_iff major : version_ok major = true <-> major = 7 \/ major = 8 \/ major = 9.
Proof. unfold version_ok. lia. Qed.

Lemma file_headers_At f p rest (known : bool) major minor pre hpl h : header_ok major minor pre hpl h ->
  (if known then At f p (enc_uint 2 major ++ enc_uint 2 minor ++ blocks pre ++ enc_block T_head hpl ++ rest)
   else At f p (header_bytes major minor pre hpl ++ rest)) ->
  decode_file_headers known f p =
  Ok (mkSess major minor (Some h),
      p + zlen (header_bytes major minor pre hpl) - (if known then 8 else 0)).
Proof.
  intros (HM & Hm & HU & HS & Hs & id & created & segs & tags & HP) HA.
  unfold decode_file_headers, decode_ssb_header.
  assert (exists p0, (if known then ret tt else t <- read_string 8 ;;
            (if zlist_eqb t T_SSBBgrsg then ret tt else fail EBadType)) f p = Ok (tt, p0) /\
          At f p0 (enc_uint 2 major ++ enc_uint 2 minor ++ blocks pre ++ enc_block T_head hpl ++ rest) /\
          p0 = p + (if known then 0 else 8)) as (p0 & E0 & HA0 & Hp0).
  { destruct known.
    - exists p. split; [reflexivity|]. split; [exact HA|lia].
    - unfold header_bytes in HA. rewrite !app_assoc in HA. rewrite <- !app_assoc in HA.
      rewrite (app_assoc T_SSBB) in HA.
      exists (p + 8). split; [|split; [apply At_advance in HA; exact HA|lia]].
      pose proof (Parses_string_bytes 8 (T_SSBB ++ T_grsg) _ eq_refl eq_refl f p _ HA) as P.
      rewrite (bind_run _ _ _ _ _ _ P). reflexivity. }
  rewrite bind_bind, (bind_run _ _ _ _ _ _ E0).
  assert (0 <= major < 65536) as HM' by lia.
  rewrite bind_bind, (bind_run _ _ _ _ _ _ (Parses_uint2 major HM' f _ _ HA0)). apply At_advance in HA0.
  rewrite bind_bind, (bind_run _ _ _ _ _ _ (Parses_uint2 minor Hm f _ _ HA0)). apply At_advance in HA0.
  rewrite !enc_uint_len in *. rewrite (bind_run (ret _) _ _ _ _ _ eq_refl).
  rewrite (proj2 (version_ok_iff major) HM).
  pose proof (PB_on_remaining T_head decode_head hpl h (PBx_PB _ _ _ _ (PBx_head _ _ _ _ _ _ HP Hs))) as HB.
  unfold eof_to_decode, bind.
  erewrite (with_block_skip T_head f _ pre T_head hpl rest _ (fun _ _ => h) HU HS HA0 raw_head Hs).
  - unfold ret. unfold header_bytes. rewrite !zlen_app, !enc_uint_len. do 2 f_equal.
    change (zlen T_SSBB) with 4. change (zlen T_grsg) with 4. destruct known; lia.
  - intros f' p' rest' b' HA' HE HT _. exists (p' + zlen hpl). split; [eapply HB; eassumption|].
    pose proof (zlen_nonneg hpl). lia.
Qed.

(** ---------------------------------------------------------------- one grain *)

Lemma GraiPayload_parts major local g pl off : GraiPayload major local g pl off -> small_payload pl ->
  exists gb extra trail,
    GbhdPayload major g gb /\ Forall (unknown_in [T_grdt]) extra /\
    pl = enc_uint 2 local ++ enc_block T_gbhd gb ++ blocks extra ++
         enc_block T_grdt (opt_bytes (g_data g)) ++ trail /\
    off = 2 + zlen (enc_block T_gbhd gb) + zlen (blocks extra) + 8 /\
    small_payload gb /\ Forall (fun c => small_payload (snd c)) extra /\ small_payload (opt_bytes (g_data g)).
Proof.
  intros H Hs. destruct H as [gb extra trail HG HU]. exists gb, extra, trail.
  unfold small_payload in Hs. rewrite !zlen_app, enc_uint_len, !enc_block_len in Hs by reflexivity.
  pose proof (zlen_nonneg gb). pose proof (zlen_nonneg (blocks extra)). pose proof (zlen_nonneg trail).
  pose proof (zlen_nonneg (opt_bytes (g_data g))).
  repeat split; try assumption.
  - unfold small_payload. lia.
  - apply blocks_smalls; [eapply unknown_tags4; eassumption|lia].
  - unfold small_payload. lia.
Qed.

Lemma decode_grdt_At k d f p rest b : At f p (d ++ rest) -> b_start b + b_size b = f_base f + p + zlen d ->
  exists q, decode_grdt k b f p = Ok (payload_of k d p, q) /\ p <= q <= p + zlen d.
Proof.
  intros HA HE. unfold decode_grdt. unfold bind at 1. unfold get_remaining at 1.
  replace (b_start b + b_size b - (f_base f + p)) with (zlen d) by lia.
  pose proof (zlen_nonneg d). destruct d as [|x d'].
  - rewrite zlen_nil in *. cbn [Z.gtb Z.compare]. exists p. split; [reflexivity|lia].
  - set (d := x :: d') in *. assert (0 < zlen d) by (unfold d; rewrite zlen_cons; pose proof (zlen_nonneg d'); lia).
    replace (zlen d >? 0) with true by lia.
    pose proof (Parses_fread (zlen d) d eq_refl f p rest HA) as P.
    unfold payload_of. fold d. change (match d with [] => PNone | _ :: _ => ?x end) with x.
    destruct (k_mode k) eqn:EM; cbn [deferring].
    + rewrite andb_false_r. rewrite (bind_run _ _ _ _ _ _ P). eexists; split; [reflexivity|lia].
    + rewrite andb_true_r. destruct (k_back k).
      * exists p. split; [|lia]. destruct (k_lazy k); reflexivity.
      * rewrite (bind_run _ _ _ _ _ _ P). eexists; split; [reflexivity|lia].
    + rewrite andb_true_r. destruct (k_back k).
      * exists p. split; [|lia]. destruct (k_lazy k); reflexivity.
      * rewrite (bind_run _ _ _ _ _ _ P). eexists; split; [reflexivity|lia].
    + rewrite andb_false_r. exists (p + zlen d). split; [|lia].
      destruct (k_fwd k); [reflexivity|]. unfold bind. rewrite P. reflexivity.
Qed.

Lemma ids_ok_iff ids local : ids_ok ids local = true <-> wanted ids local.
Proof.
  destruct ids as [l|]; cbn [ids_ok wanted]; [|tauto]. rewrite existsb_exists. split.
  - intros (x & Hx & E). apply Z.eqb_eq in E as ->. exact Hx.
  - intros H. exists local. split; [exact H|apply Z.eqb_refl].
Qed.

Lemma grain_turn_grain k major f p rest local g pl off :
  At f p (enc_block T_grai pl ++ rest) -> u16 local -> grain_ok g -> small_payload pl ->
  GraiPayload major local g pl off ->
  grain_turn k major f p =
  Ok (if ids_ok (k_ids k) local then
        TYield (mkItem (meta_of major g) (payload_of k (opt_bytes (g_data g)) (p + 8 + off)) local)
      else TCont false,
      p + zlen (enc_block T_grai pl)).
Proof.
  intros HA Hl Hg Hs HP.
  destruct (GraiPayload_parts _ _ _ _ _ HP Hs) as (gb & extra & trail & HG & HU & Epl & Eoff & Hsg & Hse & Hsd).
  unfold grain_turn, with_block.
  rewrite (bind_run _ _ _ _ _ _ (enter_At _ _ _ _ _ _ None false HA raw_grai Hs (or_introl eq_refl))).
  set (b := mkBlk (f_base f + p) (8 + zlen pl) T_grai).
  pose proof (zlen_nonneg pl) as Hn.
  assert (At f (p + 8) (pl ++ rest)) as HA'.
  { unfold enc_block in HA. rewrite app_assoc, <- app_assoc in HA. apply At_advance in HA.
    rewrite zlen_app, enc_uint_len in HA. exact HA. }
  assert (forall v q, grain_body k major b f (p + 8) = Ok (v, q) -> q <= p + 8 + zlen pl ->
    bind (grain_body k major b) (fun a => exit_block b ;;; ret a) f (p + 8) = Ok (v, p + zlen (enc_block T_grai pl))) as Hfin.
  { intros v q E Hq. rewrite (bind_run _ _ _ _ _ _ E). erewrite bind_run; [|apply exit_block_at].
    - unfold ret, b. cbn [b_start b_size]. rewrite enc_block_len by reflexivity. unfold actual_size. do 2 f_equal. lia.
    - intros _. unfold b. cbn [b_start b_size]. unfold actual_size. lia. }
  assert (zlen pl = 2 + (8 + zlen gb) + zlen (blocks extra) + (8 + zlen (opt_bytes (g_data g))) + zlen trail) as HL.
  { rewrite Epl, !zlen_app, enc_uint_len, !enc_block_len by reflexivity. lia. }
  pose proof (zlen_nonneg gb). pose proof (zlen_nonneg (blocks extra)). pose proof (zlen_nonneg trail).
  pose proof (zlen_nonneg (opt_bytes (g_data g))).
  assert (exists q, grain_body k major b f (p + 8) =
     Ok (if ids_ok (k_ids k) local then
        TYield (mkItem (meta_of major g) (payload_of k (opt_bytes (g_data g)) (p + 8 + off)) local)
      else TCont false, q) /\ q <= p + 8 + zlen pl) as (q & E & Hq).
  2:{ eapply Hfin; eassumption. }
  unfold grain_body. change (tag_is T_grai b) with true. cbn [negb].
  replace (b_size b =? 0) with false by (unfold b; cbn [b_size]; lia).
  rewrite Epl in HA'. rewrite <- !app_assoc in HA'.
  rewrite (bind_run _ _ _ _ _ _ (Parses_uint2 local Hl f _ _ HA')). apply At_advance in HA'.
  rewrite enc_uint_len in *.
  destruct (ids_ok (k_ids k) local); cbn [negb].
  2:{ eexists. split; [reflexivity|]. lia. }
  pose proof (PB_on_remaining T_gbhd (decode_gbhd major) gb (meta_of major g)
                (PBx_PB _ _ _ _ (PBx_gbhd _ _ _ Hg HG Hsg))) as HB.
  rewrite (bind_run _ _ _ _ _ _ (with_block_At _ f _ T_gbhd gb _ T_gbhd (Some T_gbhd) true _ HA' raw_gbhd Hsg
             (or_intror eq_refl) (PBx_PB _ _ _ _ HB))).
  apply At_advance in HA'.
  assert (has_child b f (p + 8 + Z.of_nat 2 + zlen (enc_block T_gbhd gb)) =
          Ok (true, p + 8 + Z.of_nat 2 + zlen (enc_block T_gbhd gb))) as Hh.
  { unfold has_child, get_remaining, bind, b. cbn [b_start b_size]. rewrite enc_block_len by reflexivity.
    replace (f_base f + p + (8 + zlen pl) - (f_base f + (p + 8 + Z.of_nat 2 + (8 + zlen gb))) >=? 8) with true by lia.
    reflexivity. }
  rewrite (bind_run _ _ _ _ _ _ Hh).
  rewrite (bind_run _ _ _ _ _ _ (with_block_skip T_grdt f _ extra T_grdt (opt_bytes (g_data g)) _ (decode_grdt k)
             (fun _ q => payload_of k (opt_bytes (g_data g)) q) HU Hse HA' raw_grdt Hsd
             (fun f' p' rest' b' HA'' HE _ _ => decode_grdt_At k _ f' p' rest' b' HA'' HE))).
  eexists. split.
  - unfold ret. do 4 f_equal. rewrite Eoff. f_equal. lia.
  - rewrite !enc_block_len by reflexivity. lia.
Qed.

Lemma grain_turn_other k major f p rest c : At f p (enc_blk c ++ rest) -> unknown_in [T_grai] c ->
  small_payload (snd c) -> grain_turn k major f p = Ok (TCont false, p + zlen (enc_blk c)).
Proof.
  intros HA (tag & Ht & Hn) Hs. unfold grain_turn. destruct c as [t pl]. cbn [fst snd] in *.
  change (enc_blk (t, pl)) with (enc_block t pl) in *.
  eapply with_block_At; [eassumption|eassumption|assumption|left; reflexivity|].
  eapply PB_ext; [|apply PB_skip]. intros b Hb f' p'. unfold grain_body.
  rewrite tag_is_false by (rewrite Hb; intros ->; apply Hn; left; reflexivity). cbn [negb].
  rewrite tag_is_false by (rewrite Hb; apply Ht). reflexivity.
Qed.

Lemma grain_turn_end k major f p rest : At f p (piece_bytes PEnd ++ rest) ->
  grain_turn k major f p = Ok (if k_concat k then TCont false else TBreak, p + 8).
Proof.
  intros HA. cbn [piece_bytes] in HA. rewrite <- app_assoc in HA.
  assert (read_tag_size f p = Ok ((T_grai, 0), p + 8)) as E.
  { unfold read_tag_size, read_tag. pose proof (Parses_string_bytes 4 T_grai T_grai eq_refl eq_refl f p _ HA) as P.
    change (clean_string T_grai) with T_grai in P. rewrite (bind_run _ _ _ _ _ _ P). apply At_advance in HA.
    change (zlist_eqb T_grai T_SSBB) with false. cbv beta match.
    pose proof (Parses_uint4 0 ltac:(lia) f _ _ HA) as Q. rewrite (bind_run _ _ _ _ _ _ Q).
    unfold ret. rewrite enc_uint_len. change (zlen T_grai) with 4. do 2 f_equal. lia. }
  unfold grain_turn, with_block, enter. rewrite bind_bind, (bind_run base_tell _ f p (f_base f + p) p) by reflexivity.
  unfold fuel_of. unfold bind at 1. cbn [enter_loop]. rewrite (bind_run _ _ _ _ _ _ E).
  unfold ret. unfold grain_body. change (tag_is T_grai _) with true. cbn [negb b_size Z.eqb].
  unfold bind. destruct (k_concat k); unfold ret, exit_block; cbn [b_start b_size].
  - replace (f_fwd f && _) with false; [do 2 f_equal; unfold actual_size; lia|].
    destruct (f_fwd f); cbn [andb]; [|reflexivity]. unfold actual_size. lia.
  - replace (f_fwd f && _) with false; [do 2 f_equal; unfold actual_size; lia|].
    destruct (f_fwd f); cbn [andb]; [|reflexivity]. unfold actual_size. lia.
Qed.

Lemma grain_turn_SSBB k major f p rest : At f p (T_SSBB ++ T_grsg ++ rest) ->
  grain_turn k major f p = Ok (if k_concat k then TCont true else TBreak, p + 8).
Proof.
  intros HA.
  assert (read_tag_size f p = Ok ((T_SSBB, 8), p + 8)) as E.
  { unfold read_tag_size, read_tag. pose proof (Parses_string_bytes 4 T_SSBB T_SSBB eq_refl eq_refl f p _ HA) as P.
    change (clean_string T_SSBB) with T_SSBB in P. rewrite (bind_run _ _ _ _ _ _ P). apply At_advance in HA.
    change (zlist_eqb T_SSBB T_SSBB) with true. cbv beta match.
    pose proof (Parses_string_bytes 4 T_grsg T_grsg eq_refl eq_refl f _ _ HA) as Q.
    change (clean_string T_grsg) with T_grsg in Q. rewrite (bind_run _ _ _ _ _ _ Q).
    change (zlist_eqb T_grsg T_grsg) with true. cbv beta match.
    unfold ret. change (zlen T_SSBB) with 4. change (zlen T_grsg) with 4. do 2 f_equal. lia. }
  unfold grain_turn, with_block, enter. rewrite bind_bind, (bind_run base_tell _ f p (f_base f + p) p) by reflexivity.
  unfold fuel_of. unfold bind at 1. cbn [enter_loop]. rewrite (bind_run _ _ _ _ _ _ E).
  unfold ret. unfold grain_body. change (tag_is T_grai (mkBlk (f_base f + p) 8 T_SSBB)) with false.
  change (tag_is T_SSBB (mkBlk (f_base f + p) 8 T_SSBB)) with true. cbn [negb].
  unfold bind. destruct (k_concat k); unfold ret, exit_block; cbn [b_start b_size].
  - replace (f_fwd f && _) with false; [do 2 f_equal; unfold actual_size; lia|].
    destruct (f_fwd f); cbn [andb]; [|reflexivity]. unfold actual_size. lia.
  - replace (f_fwd f && _) with false; [do 2 f_equal; unfold actual_size; lia|].
    destruct (f_fwd f); cbn [andb]; [|reflexivity]. unfold actual_size. lia.
Qed.

(** ---------------------------------------------------------------- the main loop *)

Definition prepend (l : list item) (r : list item * sess * outcome) : list item * sess * outcome :=
  let '(l', s, o) := r in (l ++ l', s, o).

(** The loop with exactly enough fuel for any input. *)
Definition run (k : cfg) (s : sess) (hc : bool) (f : file) (p : Z) := grains_loop (fuel_of f) k s hc f p.

Lemma run_fuel k s hc f p n : 0 <= p -> (0 < n)%nat -> zlen (f_data f) - p < Z.of_nat n ->
  grains_loop n k s hc f p = run k s hc f p.
Proof.
  intros Hp H0 Hn. unfold run. destruct (Nat.le_ge_cases n (fuel_of f)).
  - symmetry. apply grains_loop_fuel; assumption.
  - apply grains_loop_fuel; try assumption; unfold fuel_of, zlen; lia.
Qed.

Lemma run_unfold k s hc f p : 0 <= p ->
  run k s hc f p =
  match (if hc then decode_file_headers true f p else Ok (s, p)) with
  | Err EEof => ([], s, Done)
  | Err e => ([], s, Raised e)
  | Ok (s', p') =>
      match grain_turn k (s_major s') f p' with
      | Err EEof => ([], s', Done)
      | Err e => ([], s', Raised e)
      | Ok (TBreak, _) => ([], s', Done)
      | Ok (TCont c, p'') => run k s' c f p''
      | Ok (TYield i, p'') => prepend [i] (run k s' false f p'')
      end
  end.
Proof.
  intros Hp. unfold run at 1. unfold fuel_of. cbn [grains_loop].
  assert (match (if hc then decode_file_headers true f p else Ok (s, p)) with
          | Ok (_, q) => p <= q | Err e => e <> EFuel end) as GH.
  { destruct hc; [|lia]. apply (Good_file_headers true f p Hp). }
  destruct (if hc then decode_file_headers true f p else Ok (s, p)) as [[s' p']|e]; [|reflexivity].
  pose proof (grain_turn_good k (s_major s') f p' ltac:(lia)) as GT.
  destruct (grain_turn k (s_major s') f p') as [[[c| |i] q]|e]; try reflexivity.
  - apply run_fuel; unfold zlen in *; lia.
  - rewrite (run_fuel k s' false f q) by (unfold zlen in *; lia).
    destruct (run k s' false f q) as [[l s''] o]. reflexivity.
Qed.

Lemma prepend_cons i l r : prepend [i] (prepend l r) = prepend (i :: l) r.
Proof. destruct r as [[l' s] o]. reflexivity. Qed.

Lemma prepend_nil r : prepend [] r = r.
Proof. destruct r as [[l' s] o]. reflexivity. Qed.

Lemma stops_cons k pc ps : stops k (pc :: ps) = (negb (k_concat k) && is_stop pc) || stops k ps.
Proof. unfold stops. cbn [existsb]. destruct (k_concat k), (is_stop pc); reflexivity. Qed.

(** Reading well-formed pieces followed by anything. *)
Lemma run_pieces k f : forall ps s p rest l s', Pieces (s_major s) ps -> Yields k s p ps l s' ->
  f_base f = 0 -> At f p (pieces_bytes ps ++ rest) ->
  run k s false f p =
  if stops k ps then (l, s', Done) else prepend l (run k s' false f (p + zlen (pieces_bytes ps))).
Proof.
  intros ps. induction ps as [|pc ps IH]; intros s p rest l s' HP HY Hb HA.
  - inversion HY; subst. unfold stops. cbn [existsb pieces_bytes flat_map]. rewrite andb_false_r, prepend_nil, zlen_nil, Z.add_0_r.
    reflexivity.
  - pose proof (At_pos _ _ _ HA) as Hp. unfold pieces_bytes in HA |- *. cbn [flat_map] in *.
    fold (pieces_bytes ps) in *. rewrite <- app_assoc in HA. rewrite stops_cons, zlen_app, Z.add_assoc.
    rewrite run_unfold by assumption.
    inversion HY; subst; inversion HP; subst; cbn [piece_bytes is_stop] in *.
    + rewrite (grain_turn_grain _ _ _ _ _ _ _ _ _ HA) by eassumption.
      rewrite (proj2 (ids_ok_iff _ _)) by assumption. apply At_advance in HA.
      rewrite andb_false_r. cbn [orb].
      erewrite IH by eassumption. destruct (stops k ps); [reflexivity|apply prepend_cons].
    + rewrite (grain_turn_grain _ _ _ _ _ _ _ _ _ HA) by eassumption.
      replace (ids_ok (k_ids k) local) with false.
      2:{ destruct (ids_ok (k_ids k) local) eqn:E; [|reflexivity]. apply ids_ok_iff in E. contradiction. }
      apply At_advance in HA. rewrite andb_false_r. cbn [orb]. eapply IH; eassumption.
    + erewrite grain_turn_other by eassumption. apply At_advance in HA. rewrite andb_false_r. cbn [orb].
      eapply IH; eassumption.
    + erewrite grain_turn_end by eassumption. apply At_advance in HA.
      match goal with H : k_concat k = _ |- _ => rewrite H end. cbn [negb andb orb].
      change (zlen (T_grai ++ [0; 0; 0; 0])) with 8 in *. eapply IH; eassumption.
    + erewrite grain_turn_end by eassumption.
      match goal with H : k_concat k = _ |- _ => rewrite H end. reflexivity.
    + assert (HA2 : At f p (header_bytes major minor pre hpl ++ pieces_bytes ps ++ rest)) by exact HA.
      unfold header_bytes in HA. rewrite <- !app_assoc in HA.
      erewrite grain_turn_SSBB by eassumption.
      match goal with H : k_concat k = _ |- _ => rewrite H end. cbn [negb andb orb].
      rewrite run_unfold by lia. rewrite app_assoc in HA. apply At_advance in HA.
      change (zlen (T_SSBB ++ T_grsg)) with 8 in HA.
      erewrite (file_headers_At f (p + 8) _ true) by eassumption.
      replace (p + 8 + zlen (header_bytes major minor pre hpl) - 8) with (p + zlen (header_bytes major minor pre hpl)) by lia.
      apply At_advance in HA2. pose proof (At_pos _ _ _ HA2) as Hp2.
      match goal with H : Yields k (mkSess ?M ?m ?hh) _ _ _ _ |- _ =>
        specialize (IH (mkSess M m hh) _ rest l s' ltac:(assumption) H Hb HA2) end.
      rewrite run_unfold in IH by assumption. cbn [s_major] in *. exact IH.
    + unfold header_bytes in HA. rewrite <- !app_assoc in HA.
      erewrite grain_turn_SSBB by eassumption.
      match goal with H : k_concat k = _ |- _ => rewrite H end. reflexivity.
Qed.

(** At the end of the input the iteration ends normally. *)
Lemma run_eof k s f p : 0 <= p -> zlen (f_data f) - p < 4 -> run k s false f p = ([], s, Done).
Proof.
  intros Hp HL. rewrite run_unfold by assumption.
  assert (read_string 4 f p = Err EEof) as E.
  { unfold read_string, bind, fread. assert (zlen (zfirst 4 (zskip p (f_data f))) < 4) as HZ.
    { rewrite zlen_zfirst by lia. destruct (Z.le_gt_cases p (zlen (f_data f))).
      - rewrite zlen_zskip by lia. lia.
      - rewrite zskip_all by lia. rewrite (zlen_nil (A:=Z)). lia. }
    destruct (f_strict f && _); [reflexivity|]. replace (_ =? 4) with false by lia. reflexivity. }
  unfold grain_turn, with_block, enter, read_tag_size, bind, base_tell, fuel_of. cbn [enter_loop].
  unfold read_tag_size, read_tag, bind. rewrite E. reflexivity.
Qed.

(** Every configuration yields something on well-formed pieces. *)
Lemma Yields_total k : forall ps s p, exists l s', Yields k s p ps l s'.
Proof.
  induction ps as [|pc ps IH]; intros s p; [eexists _, _; constructor|].
  destruct pc as [local g pl off|c| |major minor pre hpl h].
  - destruct (IH s (p + zlen (enc_block T_grai pl))) as (l & s' & HY).
    destruct (ids_ok (k_ids k) local) eqn:E.
    + eexists _, _. apply Y_grain; [now apply ids_ok_iff|eassumption].
    + eexists _, _. apply Y_filtered; [intros H; apply ids_ok_iff in H; congruence|eassumption].
  - destruct (IH s (p + zlen (enc_blk c))) as (l & s' & HY). eexists _, _. apply Y_other; eassumption.
  - destruct (k_concat k) eqn:EC.
    + destruct (IH s (p + 8)) as (l & s' & HY). eexists _, _. apply Y_end; eassumption.
    + eexists _, _. apply Y_end_stop; assumption.
  - destruct (k_concat k) eqn:EC.
    + destruct (IH (mkSess major minor (Some h)) (p + zlen (header_bytes major minor pre hpl))) as (l & s' & HY).
      eexists _, _. apply Y_file; eassumption.
    + eexists _, _. apply Y_file_stop; assumption.
Qed.

(** The complete statement about reading a well-formed file (or concatenation of files). *)
Theorem decode_wellformed k data strict fwd major minor pre hpl h ps l s' :
  header_ok major minor pre hpl h -> Pieces major ps ->
  data = header_bytes major minor pre hpl ++ pieces_bytes ps ->
  Yields k (mkSess major minor (Some h)) (zlen (header_bytes major minor pre hpl)) ps l s' ->
  decode_file k (mkFile data 0 strict fwd) = Ok (mkSess major minor (Some h), (l, s', Done)).
Proof.
  intros HH HP -> HY. unfold decode_file.
  set (f := mkFile (header_bytes major minor pre hpl ++ pieces_bytes ps) 0 strict fwd).
  assert (At f 0 (header_bytes major minor pre hpl ++ pieces_bytes ps)) as HA by apply At_start.
  rewrite (file_headers_At f 0 (pieces_bytes ps) false major minor pre hpl h HH HA).
  apply At_advance in HA. rewrite Z.add_0_l in HA.
  replace (0 + zlen (header_bytes major minor pre hpl) - 0) with (zlen (header_bytes major minor pre hpl)) by lia.
  change (grains_loop (fuel_of f) k (mkSess major minor (Some h)) false f (zlen (header_bytes major minor pre hpl)))
    with (run k (mkSess major minor (Some h)) false f (zlen (header_bytes major minor pre hpl))).
  rewrite (run_pieces k f ps (mkSess major minor (Some h)) _ [] l s' HP HY eq_refl) by (rewrite app_nil_r; exact HA).
  destruct (stops k ps); [reflexivity|].
  rewrite run_eof.
  - cbn [prepend]. rewrite app_nil_r. reflexivity.
  - pose proof (zlen_nonneg (header_bytes major minor pre hpl)). pose proof (zlen_nonneg (pieces_bytes ps)). lia.
  - unfold f. cbn [f_data]. rewrite zlen_app. lia.
Qed.
