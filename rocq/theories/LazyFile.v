(** The deferred grains of a decoded file stand for the bytes that eager loading gives. *)
From Verif Require Import Base BaseProofs Utf8 Utf8Proofs GsfPrim GsfPrimProofs GsfBlock GsfBlockProofs   GsfDecode CogEnums GsfEncode GsfSpec GsfCodecProofs GsfFileSpec GsfTermProofs GsfFileProofs
  GsfFileFacts IoBytesSpec LazyGrains LazySpec LazyProofs.
From Coq Require Import ZifyBool ZifyNat.
Ltac Zify.zify_post_hook ::= Z.div_mod_to_equations.

Definition shown_bytes (x : shown) : bytes := snd (fst x).
Definition nonempty (l : list bytes) : list bytes := filter (fun d => negb (zlen d =? 0)) l.

Lemma nonempty_cons_nil l : nonempty ([] :: l) = nonempty l. Proof. reflexivity. Qed.
Lemma nonempty_cons x t l : nonempty ((x :: t) :: l) = (x :: t) :: nonempty l.
Proof. unfold nonempty. cbn [filter]. rewrite zlen_cons. pose proof (zlen_nonneg t). now replace (1 + zlen t =? 0) with false by lia. Qed.

Lemma eager_payloads k data l c : k_mode k = LoadImmediately -> Forall (fun i => payload_form k data (i_data i)) l ->
  map (view data) l = c -> payloads l = nonempty (map shown_bytes c).
Proof.
  intros HM HF <-. induction HF as [|i l HF0 HF IH]; [reflexivity|]. cbn [map payloads flat_map]. fold (payloads l).
  unfold shown_bytes at 1, view at 1. cbn [fst snd]. rewrite IH. destruct HF0 as [|d _ HN|pos len H|pos len H]; cbn [loaded app].
  - now rewrite nonempty_cons_nil.
  - destruct d as [|x t]; [congruence|]. now rewrite nonempty_cons.
  - destruct H as [H|H]; congruence.
  - destruct H as [H|H]; congruence.
Qed.

Lemma slice_inside (data d : bytes) pos : 0 <= pos -> slice data pos (zlen d) = d -> d <> [] -> pos + zlen d <= zlen data.
Proof.
  intros HP H HN. apply (f_equal zlen) in H. unfold slice in H. pose proof (zlen_nonneg d). rewrite zlen_zfirst, zlen_zskip in H by lia.
  assert (zlen d <> 0) by (intros E; apply HN, zlen_0_nil, E). lia.
Qed.

Lemma Yields_lazies k data : lazy_cfg k -> forall ps s p l s' a, Yields k s p ps l s' -> Pieces (s_major s) ps ->
  data = a ++ pieces_bytes ps -> zlen a = p ->
  map (lz_bytes data) (lz_of l) = nonempty (map shown_bytes (select (k_ids k) (contents (k_concat k) (s_major s) ps))) /\
  Forall untouched (lz_of l) /\ Forall (readable data true) (lz_of l) /\ Forall (fun g => lz_exit g = on_exit k) (lz_of l).
Proof.
  intros (HM & HB & HL) ps s p l s' a HY. revert a. induction HY; intros a HP HD Ha; cbn [contents].
  - repeat split; constructor.
  - unfold pieces_bytes in HD. cbn [flat_map piece_bytes] in HD. fold (pieces_bytes ps) in HD.
    inversion HP; subst.
    destruct (IHHY (a ++ enc_block T_grai pl)) as (IH1 & IH2 & IH3 & IH4); [assumption| |rewrite zlen_app; reflexivity|].
    { rewrite <- app_assoc. reflexivity. }
    unfold select in *. cbn [filter]. unfold shown_local at 1. cbn [snd].
    replace (in_ids (k_ids k) local) with true by (symmetry; now apply ids_same).
    cbn [map]. unfold shown_bytes at 1. cbn [fst snd]. cbn [lz_of flat_map i_data]. fold (lz_of l).
    assert (slice (a ++ enc_block T_grai pl ++ pieces_bytes ps) (zlen a + 8 + off) (zlen (opt_bytes (g_data g))) = opt_bytes (g_data g)) as ES
      by (eapply grai_data_at; eassumption).
    assert (0 <= zlen a + 8 + off) as HO.
    { match goal with H : GraiPayload _ _ _ _ _ |- _ => destruct H as [gb extra trail _ _] end.
      pose proof (zlen_nonneg a). pose proof (zlen_nonneg (enc_block T_gbhd gb)). pose proof (zlen_nonneg (blocks extra)). lia. }
    destruct (opt_bytes (g_data g)) as [|x t] eqn:ED.
    + unfold payload_of. cbn [app]. rewrite nonempty_cons_nil. auto.
    + assert (payload_of k (x :: t) (zlen a + 8 + off) = PLazy (zlen a + 8 + off) (zlen (x :: t)) (on_exit k)) as ->.
      { unfold payload_of, on_exit. rewrite HB, HL. destruct (k_mode k); try discriminate; reflexivity. }
      cbn [app map]. rewrite nonempty_cons. unfold lz_bytes at 1. cbn [lz_pos lz_len].
      change (region ?a ?b ?c) with (slice a b c). rewrite ES, IH1. split; [reflexivity|].
      split; [constructor; [split; reflexivity|exact IH2]|]. split; [|constructor; [reflexivity|exact IH4]].
      constructor; [|exact IH3]. unfold readable. cbn [lz_pos lz_len]. pose proof (zlen_nonneg (x :: t)). split; [exact HO|]. split; [lia|].
      intros _. apply slice_inside; [exact HO|exact ES|discriminate].
  - unfold pieces_bytes in HD. cbn [flat_map piece_bytes] in HD. fold (pieces_bytes ps) in HD.
    inversion HP; subst.
    destruct (IHHY (a ++ enc_block T_grai pl)) as (IH1 & IH2 & IH3); [assumption| |rewrite zlen_app; reflexivity|].
    { rewrite <- app_assoc. reflexivity. }
    unfold select in *. cbn [filter]. unfold shown_local at 1. cbn [snd].
    replace (in_ids (k_ids k) local) with false; [auto|].
    destruct (in_ids (k_ids k) local) eqn:E; [|reflexivity]. apply ids_same in E. contradiction.
  - unfold pieces_bytes in HD. cbn [flat_map piece_bytes] in HD. fold (pieces_bytes ps) in HD.
    inversion HP; subst.
    apply (IHHY (a ++ enc_blk c)); [assumption|rewrite <- app_assoc; reflexivity|rewrite zlen_app; reflexivity].
  - unfold pieces_bytes in HD. cbn [flat_map piece_bytes] in HD. fold (pieces_bytes ps) in HD.
    inversion HP; subst. rewrite H in *.
    apply (IHHY (a ++ (T_grai ++ [0;0;0;0]))); [assumption|rewrite <- !app_assoc; reflexivity|rewrite zlen_app; reflexivity].
  - rewrite H. repeat split; constructor.
  - unfold pieces_bytes in HD. cbn [flat_map piece_bytes] in HD. fold (pieces_bytes ps) in HD.
    inversion HP; subst. rewrite H in *.
    apply (IHHY (a ++ header_bytes major minor pre hpl));
      [assumption|rewrite <- app_assoc; reflexivity|rewrite zlen_app; reflexivity].
  - rewrite H. repeat split; constructor.
Qed.

Lemma mode_now S : map (mode_data LoadImmediately) S = S.
Proof. induction S as [|x S IH]; [reflexivity|]. cbn [map mode_data]. now rewrite IH. Qed.

(** One file, decoded twice. *)
Theorem lazy_matches_eager k k' x strict fwd strict' fwd' : gsf_ok x -> lazy_cfg k -> k_mode k' = LoadImmediately ->
  k_ids k = k_ids k' -> k_concat k = k_concat k' ->
  exists l l' s,
    decode_file k (mkFile (gsf_bytes x) 0 strict fwd) = Ok (gsf_sess x, (l, s, Done)) /\
    decode_file k' (mkFile (gsf_bytes x) 0 strict' fwd') = Ok (gsf_sess x, (l', s, Done)) /\
    map (lz_bytes (gsf_bytes x)) (lz_of l) = payloads l' /\
    Forall untouched (lz_of l) /\ Forall (readable (gsf_bytes x) true) (lz_of l) /\ Forall (fun g => lz_exit g = on_exit k) (lz_of l).
Proof.
  intros HX HK HM HI HC.
  destruct (decode_contents k' x [] strict' fwd' HX ltac:(congruence)) as (l' & E' & V' & F').
  rewrite app_nil_r in *. rewrite HM, mode_now in V'. pose proof (eager_payloads k' (gsf_bytes x) l' _ HM F' V') as EP.
  destruct HX as (HH & HP).
  destruct (Yields_total k (gf_pieces x) (gsf_sess x) (zlen (header_bytes (gf_major x) (gf_minor x) (gf_pre x) (gf_head_payload x)))) as (l & s & HY).
  exists l, l', s.
  pose proof (decode_wellformed k (gsf_bytes x) strict fwd _ _ _ _ _ _ l s HH HP eq_refl HY) as ED.
  destruct (Yields_views k (gsf_bytes x) _ _ _ _ _ _ HY HP eq_refl eq_refl) as (_ & _ & Hs).
  destruct (Yields_lazies k (gsf_bytes x) HK _ _ _ _ _ _ HY HP eq_refl eq_refl) as (H1 & H2 & H3 & H4).
  split; [exact ED|]. split; [rewrite E', Hs, <- HC; reflexivity|]. split; [|auto].
  rewrite H1, EP, HI, HC. reflexivity.
Qed.

Lemma while_open_eager file gs ps o : map (lz_bytes file) gs = ps -> while_open file gs o = eager_result ps o.
Proof. intros <-. destruct o as [i| |]; try reflexivity. cbn [while_open eager_result]. rewrite nth_error_map. now destruct (nth_error gs i). Qed.

Lemma readable_any file strict g : readable file true g -> readable file strict g.
Proof. intros (H1 & H2 & H3). split; [exact H1|]. split; [exact H2|]. intros _. now apply H3. Qed.

Theorem lazy_file k k' x strict fwd strict' fwd' : gsf_ok x -> lazy_cfg k -> k_mode k' = LoadImmediately ->
  k_ids k = k_ids k' -> k_concat k = k_concat k' ->
  exists l l' s,
    decode_file k (mkFile (gsf_bytes x) 0 strict fwd) = Ok (gsf_sess x, (l, s, Done)) /\
    decode_file k' (mkFile (gsf_bytes x) 0 strict' fwd') = Ok (gsf_sess x, (l', s, Done)) /\
    forall pos ops, Forall (inside (length (payloads l'))) ops ->
    let '(t, rs) := lz_run (ls_new (gsf_bytes x) strict pos (lz_of l)) ops in
    rs = map (eager_result (payloads l')) ops /\ ls_pos t = last_pos pos ops /\
    forall i d, nth_error (payloads l') i = Some d -> data_of t i = Some (if awaited ops i then Some d else None).
Proof.
  intros HX HK HM HI HC. destruct (lazy_matches_eager k k' x strict fwd strict' fwd' HX HK HM HI HC) as (l & l' & s & E & E' & EP & HU & HR & _).
  exists l, l', s. split; [exact E|]. split; [exact E'|]. intros pos ops HO.
  assert (length (payloads l') = length (lz_of l)) as EL by (rewrite <- EP; apply map_length). rewrite EL in HO.
  assert (Forall (readable (gsf_bytes x) strict) (lz_of l)) as HR' by (eapply Forall_impl; [apply readable_any|exact HR]).
  pose proof (lazy_open (gsf_bytes x) strict pos (lz_of l) ops HU HR' HO) as H. destruct (lz_run _ ops) as [t rs].
  destruct H as (H1 & H2 & H3). split.
  - rewrite H1. apply map_ext. intros o. apply while_open_eager, EP.
  - split; [exact H2|]. intros i d Hd. rewrite <- EP, nth_error_map in Hd. destruct (nth_error (lz_of l) i) as [g|] eqn:EN; [|discriminate].
    cbn [option_map] in Hd. inversion Hd. subst d. apply (H3 i g EN).
Qed.
