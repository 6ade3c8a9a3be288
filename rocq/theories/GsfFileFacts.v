(** Consequences of [decode_wellformed] stated on the logical contents of files. *)
From Verif Require Import Base BaseProofs Utf8 Utf8Proofs GsfPrim GsfPrimProofs GsfBlock GsfBlockProofs
  GsfDecode CogEnums GsfEncode GsfSpec GsfCodecProofs GsfFileSpec GsfTermProofs GsfFileProofs.
From Coq Require Import ZifyBool ZifyNat.
Ltac Zify.zify_post_hook ::= Z.div_mod_to_equations.

Lemma slice_mid (a d b : bytes) : slice (a ++ d ++ b) (zlen a) (zlen d) = d.
Proof. unfold slice. rewrite zskip_app, zfirst_app. reflexivity. Qed.

Lemma payload_of_loaded k d data pos : slice data pos (zlen d) = d ->
  loaded data (payload_of k d pos) = match k_mode k with LoadNever => [] | _ => d end.
Proof.
  intros H. unfold payload_of. destruct d as [|x t]; [destruct (k_mode k); reflexivity|].
  destruct (k_mode k), (k_back k), (k_lazy k); cbn [loaded]; try exact H; reflexivity.
Qed.

Lemma payload_of_form k d data pos : slice data pos (zlen d) = d -> payload_form k data (payload_of k d pos).
Proof.
  intros HS. unfold payload_of. destruct d as [|x t]; [constructor|].
  assert (0 < zlen (x :: t)) as HL by (rewrite zlen_cons; pose proof (zlen_nonneg t); lia).
  assert (zlen (slice data pos (zlen (x :: t))) = zlen (x :: t)) as HZ by (rewrite HS; reflexivity).
  destruct (k_mode k) eqn:EM; try constructor.
  - auto.
  - discriminate.
  - destruct (k_back k) eqn:EB; [destruct (k_lazy k) eqn:EL|].
    + replace true with (match k_mode k with LoadDefer => true | _ => false end) by (rewrite EM; reflexivity).
      constructor; auto.
    + constructor; auto.
    + constructor; [right; split; [congruence|assumption]|discriminate].
  - destruct (k_back k) eqn:EB; [destruct (k_lazy k) eqn:EL|].
    + replace false with (match k_mode k with LoadDefer => true | _ => false end) by (rewrite EM; reflexivity).
      constructor; auto.
    + constructor; auto.
    + constructor; [right; split; [congruence|assumption]|discriminate].
Qed.
Lemma payload_form_app k data rest p : payload_form k data p -> payload_form k (data ++ rest) p.
Proof.
  assert (forall pos len, 0 < len -> zlen (slice data pos len) = len -> zlen (slice (data ++ rest) pos len) = len) as H.
  { unfold slice. intros pos len HL. rewrite !zfirst_firstn, !zskip_skipn. unfold zlen. rewrite !firstn_length, !skipn_length, app_length. lia. }
  intros [| | |]; constructor; auto.
Qed.

(** Where the data of a grain is. *)
Lemma grai_data_at major local g pl off (a b : bytes) : GraiPayload major local g pl off ->
  slice (a ++ enc_block T_grai pl ++ b) (zlen a + 8 + off) (zlen (opt_bytes (g_data g))) = opt_bytes (g_data g).
Proof.
  intros H. destruct H as [gb extra trail _ _].
  set (d := opt_bytes (g_data g)).
  set (pl := enc_uint 2 local ++ enc_block T_gbhd gb ++ blocks extra ++ enc_block T_grdt d ++ trail).
  assert (a ++ enc_block T_grai pl ++ b =
          (a ++ (T_grai ++ enc_uint 4 (8 + zlen pl)) ++ enc_uint 2 local ++ enc_block T_gbhd gb ++ blocks extra ++
           (T_grdt ++ enc_uint 4 (8 + zlen d))) ++ d ++ (trail ++ b)) as E.
  { unfold enc_block at 1. unfold pl at 2. unfold enc_block at 2. rewrite <- !app_assoc. reflexivity. }
  rewrite E.
  replace (zlen a + 8 + (2 + zlen (enc_block T_gbhd gb) + zlen (blocks extra) + 8)) with
    (zlen (a ++ (T_grai ++ enc_uint 4 (8 + zlen pl)) ++ enc_uint 2 local ++ enc_block T_gbhd gb ++ blocks extra ++
           (T_grdt ++ enc_uint 4 (8 + zlen d)))); [apply slice_mid|].
  rewrite !zlen_app, !enc_uint_len. change (zlen T_grai) with 4. change (zlen T_grdt) with 4. lia.
Qed.

Lemma ids_same ids local : in_ids ids local = true <-> wanted ids local.
Proof. apply ids_ok_iff. Qed.

Lemma Yields_views k data : forall ps s p l s' a, Yields k s p ps l s' -> Pieces (s_major s) ps ->
  data = a ++ pieces_bytes ps -> zlen a = p ->
  map (view data) l = map (mode_data (k_mode k)) (select (k_ids k) (contents (k_concat k) (s_major s) ps)) /\
  Forall (fun i => payload_form k data (i_data i)) l /\ s' = final_sess (k_concat k) s ps.
Proof.
  intros ps s p l s' a HY. revert a. induction HY; intros a HP HD Ha; cbn [contents final_sess].
  - repeat split; constructor.
  - unfold pieces_bytes in HD. cbn [flat_map piece_bytes] in HD. fold (pieces_bytes ps) in HD.
    inversion HP; subst.
    destruct (IHHY (a ++ enc_block T_grai pl)) as (IH1 & IH2 & IH3); [assumption| |rewrite zlen_app; reflexivity|].
    { rewrite <- app_assoc. reflexivity. }
    unfold select in *. cbn [filter]. unfold shown_local at 1. cbn [snd].
    replace (in_ids (k_ids k) local) with true by (symmetry; now apply ids_same).
    cbn [map]. rewrite <- IH1. split; [|split; [constructor; [apply payload_of_form; eapply grai_data_at; eassumption|assumption]|assumption]].
    f_equal. unfold view. cbn [i_meta i_data i_local].
    rewrite payload_of_loaded by (eapply grai_data_at; eassumption).
    destruct (k_mode k); reflexivity.
  - unfold pieces_bytes in HD. cbn [flat_map piece_bytes] in HD. fold (pieces_bytes ps) in HD.
    inversion HP; subst.
    destruct (IHHY (a ++ enc_block T_grai pl)) as (IH1 & IH2 & IH3); [assumption| |rewrite zlen_app; reflexivity|].
    { rewrite <- app_assoc. reflexivity. }
    unfold select in *. cbn [filter]. unfold shown_local at 1. cbn [snd].
    replace (in_ids (k_ids k) local) with false; [auto|].
    destruct (in_ids (k_ids k) local) eqn:E; [|reflexivity]. apply ids_same in E. contradiction.
  - unfold pieces_bytes in HD. cbn [flat_map piece_bytes] in HD. fold (pieces_bytes ps) in HD.
    inversion HP; subst.
    apply (IHHY (a ++ enc_blk c)); [assumption|rewrite <- app_assoc; reflexivity|rewrite zlen_app; reflexivity].
  - unfold pieces_bytes in HD. cbn [flat_map piece_bytes] in HD. fold (pieces_bytes ps) in HD.
    inversion HP; subst. rewrite H in *.
    apply (IHHY (a ++ (T_grai ++ [0;0;0;0]))); [assumption|rewrite <- !app_assoc; reflexivity|rewrite zlen_app; reflexivity].
  - rewrite H. repeat split; constructor.
  - unfold pieces_bytes in HD. cbn [flat_map piece_bytes] in HD. fold (pieces_bytes ps) in HD.
    inversion HP; subst. rewrite H in *.
    apply (IHHY (a ++ header_bytes major minor pre hpl));
      [assumption|rewrite <- app_assoc; reflexivity|rewrite zlen_app; reflexivity].
  - rewrite H. repeat split; constructor.
Qed.

Lemma Yields_prefix_data k ps s p l s' data rest a : Yields k s p ps l s' -> Pieces (s_major s) ps ->
  data = a ++ pieces_bytes ps ++ rest -> zlen a = p ->
  map (view data) l = map (view (a ++ pieces_bytes ps)) l.
Proof.
  intros HY HP -> Ha. rewrite app_assoc.
  revert a Ha HP. induction HY; intros a Ha HP; try reflexivity;
    unfold pieces_bytes in *; cbn [flat_map piece_bytes] in *; fold (pieces_bytes ps) in *; inversion HP; subst.
  - cbn [map]. f_equal.
    + unfold view. cbn [i_meta i_data i_local]. rewrite !payload_of_loaded; [reflexivity| |].
      * rewrite <- ?app_assoc. eapply grai_data_at; eassumption.
      * rewrite <- ?app_assoc. eapply grai_data_at; eassumption.
    + rewrite (app_assoc a). apply IHHY; [rewrite zlen_app; reflexivity|assumption].
  - rewrite (app_assoc a). apply IHHY; [rewrite zlen_app; reflexivity|assumption].
  - rewrite (app_assoc a). apply IHHY; [rewrite zlen_app; reflexivity|assumption].
  - rewrite (app_assoc a). apply IHHY; [rewrite zlen_app; reflexivity|assumption].
  - rewrite (app_assoc a). apply IHHY; [rewrite zlen_app; reflexivity|assumption].
Qed.

(** Decoding a well-formed file, possibly followed by arbitrary bytes that are never reached. *)
Theorem decode_contents k x rest strict fwd : gsf_ok x -> (rest <> [] -> stops k (gf_pieces x) = true) ->
  exists l, decode_file k (mkFile (gsf_bytes x ++ rest) 0 strict fwd) =
            Ok (gsf_sess x, (l, final_sess (k_concat k) (gsf_sess x) (gf_pieces x), Done)) /\
    map (view (gsf_bytes x ++ rest)) l =
    map (mode_data (k_mode k)) (select (k_ids k) (contents (k_concat k) (gf_major x) (gf_pieces x))) /\
    Forall (fun i => payload_form k (gsf_bytes x ++ rest) (i_data i)) l.
Proof.
  intros (HH & HP) HR. unfold gsf_bytes. destruct x as [major minor pre hpl h ps].
  cbn [gf_major gf_minor gf_pre gf_head_payload gf_head gf_pieces] in *.
  unfold gsf_sess. cbn [gf_major gf_minor gf_head].
  set (s := mkSess major minor (Some h)). set (hb := header_bytes major minor pre hpl) in *.
  destruct (Yields_total k ps s (zlen hb)) as (l & s' & HY). exists l.
  destruct (Yields_views k (hb ++ pieces_bytes ps) ps s (zlen hb) l s' hb HY HP eq_refl eq_refl) as (H1 & H2 & H3).
  assert (map (view ((hb ++ pieces_bytes ps) ++ rest)) l = map (view (hb ++ pieces_bytes ps)) l) as HV.
  { eapply Yields_prefix_data; [eassumption|exact HP|rewrite <- app_assoc; reflexivity|reflexivity]. }
  assert (Forall (fun i => payload_form k ((hb ++ pieces_bytes ps) ++ rest) (i_data i)) l) as HF
    by (eapply Forall_impl; [|exact H2]; intros i; apply payload_form_app).
  rewrite HV. split; [|auto]. rewrite <- H3.
  set (f := mkFile ((hb ++ pieces_bytes ps) ++ rest) 0 strict fwd). unfold decode_file.
  assert (At f 0 (hb ++ pieces_bytes ps ++ rest)) as HA.
  { unfold f. rewrite <- app_assoc. apply At_start. }
  rewrite (file_headers_At f 0 (pieces_bytes ps ++ rest) false major minor pre hpl h HH HA).
  apply At_advance in HA. rewrite Z.add_0_l in HA. fold hb s.
  replace (0 + zlen hb - 0) with (zlen hb) by lia.
  change (grains_loop (fuel_of f) k s false f (zlen hb)) with (run k s false f (zlen hb)).
  rewrite (run_pieces k f ps s _ rest l s' HP HY eq_refl HA).
  destruct (stops k ps) eqn:ES; [reflexivity|].
  assert (rest = []) as -> by (destruct rest; [reflexivity|specialize (HR ltac:(discriminate)); discriminate]).
  rewrite run_eof.
  - cbn [prepend]. rewrite app_nil_r. reflexivity.
  - pose proof (zlen_nonneg hb). pose proof (zlen_nonneg (pieces_bytes ps)). lia.
  - unfold f. cbn [f_data]. rewrite !zlen_app, (zlen_nil (A:=Z)). lia.
Qed.

(** ---------------------------------------------------------------- filtering *)

Lemma select_none l : select None l = l.
Proof. unfold select. induction l as [|x l IH]; [reflexivity|]. cbn [filter]. rewrite IH. reflexivity. Qed.

Lemma filter_map_comm {A} (f : A -> A) p l : (forall x, p (f x) = p x) -> filter p (map f l) = map f (filter p l).
Proof.
  intros H. induction l as [|x l IH]; cbn [filter map]; [reflexivity|]. rewrite H.
  destruct (p x); cbn [map]; now rewrite IH.
Qed.

Lemma mode_data_local m x : shown_local (mode_data m x) = shown_local x.
Proof. destruct m; reflexivity. Qed.

Lemma view_local data i : shown_local (view data i) = i_local i. Proof. reflexivity. Qed.

Theorem decode_filter x ids mode concat back fwd' lazy strict fwd : gsf_ok x ->
  exists l l' s,
    decode_file (mkCfg None mode concat back fwd' lazy) (mkFile (gsf_bytes x) 0 strict fwd) = Ok (gsf_sess x, (l, s, Done)) /\
    decode_file (mkCfg (Some ids) mode concat back fwd' lazy) (mkFile (gsf_bytes x) 0 strict fwd) = Ok (gsf_sess x, (l', s, Done)) /\
    l' = filter (fun i => existsb (Z.eqb (i_local i)) ids) l.
Proof.
  intros (HH & HP). destruct x as [major minor pre hpl h ps]. unfold gsf_bytes, gsf_sess.
  cbn [gf_major gf_minor gf_pre gf_head_payload gf_head gf_pieces] in *.
  set (k := mkCfg None mode concat back fwd' lazy). set (k' := mkCfg (Some ids) mode concat back fwd' lazy).
  set (s := mkSess major minor (Some h)). set (hb := header_bytes major minor pre hpl) in *.
  destruct (Yields_total k ps s (zlen hb)) as (l & s' & HY). exists l.
  exists (filter (fun i => existsb (Z.eqb (i_local i)) ids) l), s'.
  split; [eapply decode_wellformed; try eassumption; reflexivity|]. split; [|reflexivity].
  eapply decode_wellformed; try eassumption; [reflexivity|]. fold s.
  fold hb. revert HY. generalize s (zlen hb). clear. intros s p HY. assert (k_concat k = k_concat k') as EC by reflexivity.
  induction HY; cbn [filter i_local].
  - constructor.
  - destruct (existsb (Z.eqb local) ids) eqn:E.
    + apply (Y_grain k'); [now apply (ids_same (Some ids))|assumption].
    + apply Y_filtered; [|assumption]. intros W. apply (ids_same (Some ids)) in W. cbn [in_ids] in W. congruence.
  - exfalso. apply H. exact I.
  - apply Y_other; assumption.
  - apply Y_end; [congruence|assumption].
  - apply Y_end_stop; congruence.
  - apply Y_file; [congruence|assumption].
  - apply Y_file_stop; congruence.
Qed.

(** ---------------------------------------------------------------- concatenation *)

Lemma contents_app concat : forall a major b,
  concat = true ->
  contents concat major (a ++ b) =
  contents concat major a ++
  contents concat (s_major (final_sess concat (mkSess major 0 None) a)) b.
Proof.
  intros a major b ->. revert major b.
  assert (forall a s s', s_major s = s_major s' -> s_major (final_sess true s a) = s_major (final_sess true s' a)) as HS.
  { induction a0 as [|[] a' IH]; intros s s' E; cbn [final_sess]; try (apply IH; assumption); [assumption|reflexivity]. }
  induction a as [|pc a IH]; intros major b; cbn [app contents final_sess]; [reflexivity|].
  destruct pc; cbn [contents final_sess].
  - rewrite IH. reflexivity.
  - apply IH.
  - apply IH.
  - rewrite IH. f_equal. f_equal. apply HS. reflexivity.
Qed.

Lemma final_sess_app a : forall s b, final_sess true s (a ++ b) = final_sess true (final_sess true s a) b.
Proof. induction a as [|[] a IH]; intros s b; cbn [app final_sess]; try apply IH; reflexivity. Qed.

Lemma Pieces_app a : forall major b, Pieces major a ->
  Pieces (s_major (final_sess true (mkSess major 0 None) a)) b -> Pieces major (a ++ b).
Proof.
  assert (forall a s s', s_major s = s_major s' -> s_major (final_sess true s a) = s_major (final_sess true s' a)) as HS.
  { induction a0 as [|[] a' IH]; intros s s' E; cbn [final_sess]; try (apply IH; assumption); [assumption|reflexivity]. }
  induction a as [|pc a IH]; intros major b HA HB; [exact HB|]. cbn [app].
  inversion HA; subst; cbn [final_sess] in HB; constructor; try assumption; try (apply IH; assumption).
  apply IH; [assumption|]. erewrite HS; [exact HB|reflexivity].
Qed.

Lemma pieces_bytes_app a b : pieces_bytes (a ++ b) = pieces_bytes a ++ pieces_bytes b.
Proof. apply flat_map_app. Qed.

Definition as_piece (x : gsf_file) : piece := PFile (gf_major x) (gf_minor x) (gf_pre x) (gf_head_payload x) (gf_head x).

(** A concatenation seen as one file. *)
Fixpoint joined (xs : list gsf_file) : list piece :=
  match xs with [] => [] | x :: t => as_piece x :: gf_pieces x ++ joined t end.

Lemma joined_bytes xs : pieces_bytes (joined xs) = flat_map gsf_bytes xs.
Proof.
  induction xs as [|x xs IH]; [reflexivity|]. cbn [joined flat_map]. unfold pieces_bytes at 1. cbn [flat_map].
  fold (pieces_bytes (gf_pieces x ++ joined xs)). rewrite pieces_bytes_app, IH. unfold gsf_bytes, as_piece, piece_bytes.
  rewrite <- app_assoc. reflexivity.
Qed.

Lemma joined_ok xs : Forall gsf_ok xs -> forall major, Pieces major (joined xs).
Proof.
  intros H; induction H as [|x l (HH & HP) Hl IH]; intros major; cbn [joined]; [constructor|].
  apply Pc_file; [assumption|]. apply Pieces_app; [assumption|apply IH].
Qed.

Lemma joined_contents xs : forall major,
  contents true major (joined xs) = flat_map (fun x => contents true (gf_major x) (gf_pieces x)) xs.
Proof.
  induction xs as [|x xs IH]; intros major; cbn [joined contents as_piece flat_map]; [reflexivity|].
  rewrite contents_app by reflexivity. f_equal. apply IH.
Qed.

Lemma joined_final xs : forall s,
  final_sess true s (joined xs) = fold_left (fun _ x => final_sess true (gsf_sess x) (gf_pieces x)) xs s.
Proof.
  induction xs as [|x xs IH]; intros s; cbn [joined fold_left]; [reflexivity|].
  cbn [as_piece final_sess]. rewrite final_sess_app. apply IH.
Qed.

Lemma single_final x s : single x -> final_sess true s (gf_pieces x) = s.
Proof.
  unfold single. generalize (gf_pieces x). intros l H. induction H as [|pc l Hp Hl IH]; [reflexivity|].
  destruct pc; cbn [final_sess]; try exact IH. discriminate.
Qed.

Lemma select_app ids a b : select ids (a ++ b) = select ids a ++ select ids b.
Proof. apply filter_app. Qed.

Lemma select_flat {A} ids (g : A -> list shown) xs :
  select ids (flat_map g xs) = flat_map (fun x => select ids (g x)) xs.
Proof. induction xs as [|x xs IH]; cbn [flat_map]; [reflexivity|]. now rewrite select_app, IH. Qed.

Lemma map_flat {A B C} (h : B -> C) (g : A -> list B) xs : map h (flat_map g xs) = flat_map (fun x => map h (g x)) xs.
Proof. induction xs as [|x xs IH]; cbn [flat_map map]; [reflexivity|]. now rewrite map_app, IH. Qed.

Theorem decode_concat k strict fwd x xs : k_concat k = true -> Forall gsf_ok (x :: xs) -> Forall single (x :: xs) ->
  exists vs, Forall2 (fun y v => decodes_to k strict fwd (gsf_bytes y) (gsf_sess y) (gsf_sess y) v) (x :: xs) vs /\
    decodes_to k strict fwd (flat_map gsf_bytes (x :: xs)) (gsf_sess x) (gsf_sess (last xs x)) (concat vs).
Proof.
  intros HC HO HS.
  set (v := fun y => map (mode_data (k_mode k)) (select (k_ids k) (contents true (gf_major y) (gf_pieces y)))).
  exists (map v (x :: xs)). split.
  - assert (forall l, Forall gsf_ok l -> Forall single l ->
      Forall2 (fun y w => decodes_to k strict fwd (gsf_bytes y) (gsf_sess y) (gsf_sess y) w) l (map v l)) as HF.
    { induction l as [|y l IH]; intros H1 H2; cbn [map]; [constructor|].
      constructor; [|apply IH; [eapply Forall_inv_tail; eassumption|eapply Forall_inv_tail; eassumption]].
      apply Forall_inv in H1. apply Forall_inv in H2.
      destruct (decode_contents k y [] strict fwd H1 ltac:(congruence)) as (l' & E & V & F).
      rewrite app_nil_r in *. rewrite HC in *. exists l'. rewrite (single_final y _ H2) in E. auto. }
    apply HF; assumption.
  - set (X := mkGsf (gf_major x) (gf_minor x) (gf_pre x) (gf_head_payload x) (gf_head x) (gf_pieces x ++ joined xs)).
    assert (gsf_ok X) as HX.
    { inversion HO as [|? ? (HH & HP) HO']; subst. split; cbn [X gf_major gf_minor gf_pre gf_head_payload gf_head gf_pieces].
      - exact HH.
      - apply Pieces_app; [exact HP|apply joined_ok; assumption]. }
    assert (gsf_bytes X = flat_map gsf_bytes (x :: xs)) as EB.
    { cbn [flat_map]. unfold gsf_bytes at 1 2, X. cbn [gf_major gf_minor gf_pre gf_head_payload gf_head gf_pieces].
      rewrite pieces_bytes_app, joined_bytes, <- app_assoc. reflexivity. }
    destruct (decode_contents k X [] strict fwd HX ltac:(congruence)) as (l' & E & V & F).
    rewrite app_nil_r, EB in *. exists l'. split; [|split; [|exact F]].
    + rewrite E. change (gsf_sess X) with (gsf_sess x). do 3 f_equal. rewrite HC. unfold X. cbn [gf_pieces].
      rewrite final_sess_app, joined_final. inversion HS; subst. rewrite single_final by assumption.
      clear - H2. rename H2 into HS.
      assert (forall xs s0, Forall single xs ->
        fold_left (fun _ y => final_sess true (gsf_sess y) (gf_pieces y)) xs (gsf_sess s0) = gsf_sess (last xs s0)) as H.
      { clear. induction xs as [|y ys IH]; intros s0 H; [reflexivity|]. cbn [fold_left].
        rewrite single_final by (now apply Forall_inv in H). rewrite IH by (eapply Forall_inv_tail; eassumption).
        destruct ys; [reflexivity|]. f_equal. clear. revert y s0 g. induction ys as [|z ys IH]; intros; [reflexivity|].
        cbn [last] in *. apply IH. }
      f_equal. apply H; assumption.
    + rewrite V. unfold X. cbn [gf_major gf_pieces]. rewrite HC, contents_app by reflexivity.
      rewrite joined_contents, select_app, map_app. unfold v. cbn [map concat].
      f_equal. rewrite select_flat, map_flat. rewrite flat_map_concat_map. reflexivity.
Qed.
