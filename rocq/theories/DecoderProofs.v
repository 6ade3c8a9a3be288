(** Proofs about the decoder object. *)
From Coq Require Import Lia ZifyBool ZifyNat.
From Verif Require Import Base BaseProofs Utf8 GsfPrim GsfPrimProofs GsfBlock GsfBlockProofs GsfDecode GsfEncode GsfSpec
  GsfTermProofs GsfFileSpec GsfFileProofs GsfFileFacts GsfGroup GsfGroupProofs Decoder DecoderSpec.

(** ---------------------------------------------------------------- taking grains *)

Lemma headers_good (hc : bool) s f p : 0 <= p ->
  match (if hc then decode_file_headers true f p else Ok (s, p)) with Ok (_, q) => p <= q | Err e => e <> EFuel end.
Proof. intros Hp. destruct hc; [|lia]. apply (Good_file_headers true f p Hp). Qed.

Lemma take_fuel k f : forall n m lim s hc p, 0 <= p -> (0 < n)%nat -> zlen (f_data f) - p < Z.of_nat n ->
  (n <= m)%nat -> grains_take m lim k s hc f p = grains_take n lim k s hc f p.
Proof.
  induction n as [|n IH]; intros m lim s hc p Hp H0 Hf Hm; [lia|]. destruct m as [|m]; [lia|]. cbn [grains_take].
  pose proof (headers_good hc s f p Hp) as GH.
  destruct lim as [[|lim]|]; [reflexivity| |];
  (destruct (if hc then decode_file_headers true f p else Ok (s, p)) as [[s' p']|e]; [|reflexivity];
   pose proof (grain_turn_good k (s_major s') f p' ltac:(lia)) as GT;
   destruct (grain_turn k (s_major s') f p') as [[[c| |i] q]|e]; try reflexivity;
   [apply IH; lia|rewrite (IH m) by lia; reflexivity]).
Qed.

(** Enough budget for any input. *)
Definition take (lim : option nat) (k : cfg) (s : sess) (hc : bool) (f : file) (p : Z) : taken :=
  grains_take (fuel_of f) lim k s hc f p.

Lemma take_at lim k s hc f p n : 0 <= p -> (0 < n)%nat -> zlen (f_data f) - p < Z.of_nat n ->
  grains_take n lim k s hc f p = take lim k s hc f p.
Proof.
  intros Hp H0 Hn. unfold take. destruct (Nat.le_ge_cases n (fuel_of f)).
  - symmetry. apply take_fuel; assumption.
  - apply take_fuel; try assumption; unfold fuel_of, zlen; lia.
Qed.

Lemma take_unfold lim k s hc f p : 0 <= p -> lim <> Some O ->
  take lim k s hc f p =
  match (if hc then decode_file_headers true f p else Ok (s, p)) with
  | Err EEof => mkTaken [] s None Ended
  | Err e => mkTaken [] s None (Failed e)
  | Ok (s', p') =>
      match grain_turn k (s_major s') f p' with
      | Err EEof => mkTaken [] s' None Ended
      | Err e => mkTaken [] s' None (Failed e)
      | Ok (TBreak, p'') => mkTaken [] s' (Some p'') Ended
      | Ok (TCont c, p'') => take lim k s' c f p''
      | Ok (TYield i, p'') => and_then i (take (option_map pred lim) k s' false f p'')
      end
  end.
Proof.
  intros Hp HL. unfold take at 1. unfold fuel_of. cbn [grains_take].
  pose proof (headers_good hc s f p Hp) as GH.
  destruct lim as [[|lim]|]; [congruence| |];
  (destruct (if hc then decode_file_headers true f p else Ok (s, p)) as [[s' p']|e]; [|reflexivity];
   pose proof (grain_turn_good k (s_major s') f p' ltac:(lia)) as GT;
   destruct (grain_turn k (s_major s') f p') as [[[c| |i] q]|e]; try reflexivity;
   [apply take_at; unfold zlen in *; lia|rewrite take_at by (unfold zlen in *; lia); reflexivity]).
Qed.

Lemma take_none k s f p : take (Some O) k s false f p = mkTaken [] s (Some p) Waiting.
Proof. reflexivity. Qed.

(** All the grains at once: as the loop of the session. *)
Definition halt_of (o : outcome) : halt := match o with Done => Ended | Raised e => Failed e end.

Lemma loop_take k f : forall n s hc p,
  grains_loop n k s hc f p =
  (t_items (grains_take n None k s hc f p), t_sess (grains_take n None k s hc f p),
   match t_halt (grains_take n None k s hc f p) with Failed e => Raised e | _ => Done end) /\
  t_halt (grains_take n None k s hc f p) <> Waiting.
Proof.
  induction n as [|n IH]; intros s hc p; [split; [reflexivity|discriminate]|]. cbn [grains_loop grains_take].
  destruct (if hc then decode_file_headers true f p else Ok (s, p)) as [[s' p']|e].
  2:{ destruct e; split; try reflexivity; discriminate. }
  destruct (grain_turn k (s_major s') f p') as [[[c| |i] q]|e].
  - apply IH.
  - split; [reflexivity|discriminate].
  - destruct (IH s' false q) as [E W]. rewrite E. cbn [option_map and_then t_items t_sess t_halt]. split; [reflexivity|exact W].
  - destruct e; split; try reflexivity; discriminate.
Qed.

(** A portion and then the rest. *)
Lemma take_split k f : forall n s hc p m, 0 <= p -> (0 < n)%nat -> zlen (f_data f) - p < Z.of_nat n ->
  (hc = true -> (0 < m)%nat) ->
  (m <= List.length (t_items (grains_take n None k s hc f p)))%nat ->
  exists s' q, 0 <= q /\
    grains_take n (Some m) k s hc f p = mkTaken (firstn m (t_items (grains_take n None k s hc f p))) s' (Some q) Waiting /\
    take None k s' false f q =
      mkTaken (skipn m (t_items (grains_take n None k s hc f p))) (t_sess (grains_take n None k s hc f p))
              (t_pos (grains_take n None k s hc f p)) (t_halt (grains_take n None k s hc f p)).
Proof.
  induction n as [|n IH]; intros s hc p m Hp H0 Hn HM; [lia|].
  destruct m as [|m].
  { intros _. exists s, p. destruct hc; [specialize (HM eq_refl); lia|].
    split; [exact Hp|]. split; [reflexivity|]. rewrite <- (take_at None k s false f p (S n) Hp ltac:(lia) Hn). cbn [skipn].
    destruct (grains_take (S n) None k s false f p). reflexivity. }
  cbn [grains_take]. pose proof (headers_good hc s f p Hp) as GH.
  destruct (if hc then decode_file_headers true f p else Ok (s, p)) as [[s' p']|e];
    [|destruct e; cbn [t_items List.length]; lia].
  pose proof (grain_turn_good k (s_major s') f p' ltac:(lia)) as GT.
  destruct (grain_turn k (s_major s') f p') as [[[c| |i] q]|e]; [| | |destruct e; cbn [t_items List.length]; lia].
  - intros HL. apply IH; try assumption; lia.
  - cbn [t_items List.length]; lia.
  - cbn [option_map pred and_then t_items t_sess t_pos t_halt List.length]. intros HL.
    destruct (IH s' false q m ltac:(lia) ltac:(lia) ltac:(lia) ltac:(discriminate) ltac:(lia)) as (s2 & q2 & Hq & E1 & E2).
    exists s2, q2. split; [exact Hq|]. rewrite E1, E2. split; reflexivity.
Qed.

(** ---------------------------------------------------------------- well-formed pieces *)

(** Where reading stops. *)
Lemma take_pieces k f : forall ps s p rest l s', Pieces (s_major s) ps -> Yields k s p ps l s' ->
  Forall (fun pc => is_file pc = false) ps -> f_base f = 0 -> At f p (pieces_bytes ps ++ rest) ->
  stops k ps = false ->
  take None k s false f p =
  let t := take None k s' false f (p + zlen (pieces_bytes ps)) in mkTaken (l ++ t_items t) (t_sess t) (t_pos t) (t_halt t).
Proof.
  intros ps. induction ps as [|pc ps IH]; intros s p rest l s' HP HY HS Hb HA HN.
  - inversion HY; subst. cbn [pieces_bytes flat_map]. rewrite zlen_nil, Z.add_0_r. cbv zeta. cbn [app].
    destruct (take None k s' false f p). reflexivity.
  - pose proof (At_pos _ _ _ HA) as Hp. unfold pieces_bytes in HA |- *. cbn [flat_map] in *.
    fold (pieces_bytes ps) in *. rewrite <- app_assoc in HA. rewrite stops_cons in HN. rewrite zlen_app, Z.add_assoc.
    apply orb_false_elim in HN. destruct HN as [HN1 HN2]. inversion HS as [|? ? HS1 HS2]; subst.
    rewrite take_unfold by (assumption || discriminate).
    inversion HY; subst; inversion HP; subst; cbn [piece_bytes is_stop is_file] in *; try discriminate.
    + rewrite (grain_turn_grain _ _ _ _ _ _ _ _ _ HA) by eassumption.
      rewrite (proj2 (ids_ok_iff _ _)) by assumption. apply At_advance in HA. cbn [option_map].
      erewrite IH by eassumption. cbv zeta. unfold and_then. reflexivity.
    + rewrite (grain_turn_grain _ _ _ _ _ _ _ _ _ HA) by eassumption.
      replace (ids_ok (k_ids k) local) with false.
      2:{ destruct (ids_ok (k_ids k) local) eqn:E; [|reflexivity]. apply ids_ok_iff in E. contradiction. }
      apply At_advance in HA. eapply IH; eassumption.
    + erewrite grain_turn_other by eassumption. apply At_advance in HA. eapply IH; eassumption.
    + erewrite grain_turn_end by eassumption. apply At_advance in HA.
      match goal with H : k_concat k = _ |- _ => rewrite H end.
      change (zlen (T_grai ++ [0; 0; 0; 0])) with 8 in *. eapply IH; eassumption.
    + match goal with H : k_concat k = _ |- _ => rewrite H in HN1 end. discriminate.
Qed.

Lemma take_eof lim k s f p : lim <> Some O -> 0 <= p -> zlen (f_data f) - p < 4 -> f_strict f = false ->
  take lim k s false f p = mkTaken [] s None Ended.
Proof.
  intros HL Hp HE HS. rewrite take_unfold by assumption.
  pose proof (run_eof k s f p Hp HE) as R. rewrite run_unfold in R by assumption.
  destruct (grain_turn k (s_major s) f p) as [[[c| |i] q]|e] eqn:ET.
  - exfalso. pose proof (grain_turn_good k (s_major s) f p Hp) as GT. rewrite ET in GT. lia.
  - exfalso. pose proof (grain_turn_good k (s_major s) f p Hp) as GT. rewrite ET in GT. lia.
  - destruct (run k s false f q) as [[l s'] o]. discriminate R.
  - destruct e; try discriminate R. reflexivity.
Qed.

(** ---------------------------------------------------------------- opening *)

Lemma opening_as data p s0 c :
  match decode_file_headers false (mkFile data 0 false false) p with
  | Ok (s, q) => exists h, s_head s = Some h /\
      opening (mkDecoder (Some (data, Some p)) s0 c) = (mkDecoder (Some (data, Some q)) (Some s) c, Header h)
  | Err e => exists s q, opening (mkDecoder (Some (data, Some p)) s0 c) = (mkDecoder (Some (data, q)) (Some s) c, Raises e)
  end.
Proof.
  unfold decode_file_headers, decode_ssb_header, opening, bind, ret, fail. cbn [d_data d_concat].
  destruct (read_string 8 (mkFile data 0 false false) p) as [[t p1]|e]; [|eexists _, _; reflexivity].
  destruct (zlist_eqb t T_SSBBgrsg); [|eexists _, _; reflexivity].
  unfold decode_ssb_header, bind, ret.
  destruct (read_uint 2 (mkFile data 0 false false) p1) as [[major p2]|e]; [|eexists _, _; reflexivity].
  destruct (read_uint 2 (mkFile data 0 false false) p2) as [[minor p3]|e]; [|eexists _, _; reflexivity].
  destruct (version_ok major); [|eexists _, _; reflexivity].
  destruct (eof_to_decode _ (mkFile data 0 false false) p3) as [[h p4]|e]; [|eexists _, _; reflexivity].
  exists h. split; reflexivity.
Qed.

(** decode of bytes is load of a BytesIO of them, whatever happened to the decoder before. *)
Theorem decode_bytes d s :
  snd (decode d (Some s)) =
    (match load (d_concat d) true true false (mkFile s 0 false false) with Ok (h, l) => Groups h l | Err e => Raises e end) /\
  (forall h l, snd (decode d (Some s)) = Groups h l -> d_session (fst (decode d (Some s))) = None).
Proof.
  unfold decode, decode_all, load, decode_file. destruct d as [dd s0 c]. cbn [d_session d_concat].
  pose proof (opening_as s 0 s0 c) as O. destruct (decode_file_headers false (mkFile s 0 false false) 0) as [[s1 q]|e].
  2:{ destruct O as (s1 & q & ->). cbn [fst snd]. split; [reflexivity|discriminate]. }
  destruct O as (h & EH & ->). cbn [d_session d_data]. unfold session_grains, cfg_of. cbn [d_concat].
  set (f := mkFile s 0 false false). set (k := mkCfg None LoadImmediately c true true false).
  destruct (loop_take k f (fuel_of f) s1 false q) as [-> W]. set (t := grains_take _ _ _ _ _ _ _) in *.
  cbn [fst snd]. split; [|reflexivity].
  destruct (t_halt t); [|reflexivity|congruence]. destruct (s_head (t_sess t)); reflexivity.
Qed.

(** ---------------------------------------------------------------- portions *)

Lemma grains_inj l e l' e' : Grains l e = Grains l' e' -> l = l' /\ e = e'.
Proof. intros H. injection H. auto. Qed.

Theorem in_portions ids skip lazy : forall ns data p s c l e, 0 <= p ->
  let d := mkDecoder (Some (data, Some p)) (Some s) c in
  snd (old_grains d ids skip lazy None) = Grains l e ->
  (fold_right Nat.add O ns <= List.length l)%nat ->
  do_calls d (map (fun n => CGrains ids skip lazy (Some n)) ns ++ [CGrains ids skip lazy None]) =
  (fst (old_grains d ids skip lazy None), portions ns l e).
Proof.
  intros ns. induction ns as [|n ns IH]; intros data p s c l e Hp d HR HL.
  - cbn [map app do_calls do_call portions]. destruct (old_grains d ids skip lazy None) as [d1 r]. cbn [fst snd] in *. now subst r.
  - cbn [map app do_calls do_call portions]. cbn [fold_right] in HL.
    unfold d, old_grains, session_grains, cfg_of in HR. cbn [d_session d_data d_concat snd] in HR.
    set (f := mkFile data 0 false false) in *. set (k := mkCfg ids (old_mode skip lazy) c true true false) in *.
    apply grains_inj in HR. destruct HR as [EL EE].
    destruct (take_split k f (fuel_of f) s false p n Hp ltac:(unfold fuel_of; lia)
                ltac:(unfold fuel_of, zlen; lia) ltac:(discriminate) ltac:(rewrite EL; lia)) as (s' & q & Hq & E1 & E2).
    assert (old_grains d ids skip lazy (Some n) =
            (mkDecoder (Some (data, Some q)) (Some s') c, Grains (firstn n l) Waiting)) as ->.
    { unfold d, old_grains, session_grains, cfg_of. cbn [d_session d_data d_concat]. fold f k. rewrite E1, EL. reflexivity. }
    assert (old_grains (mkDecoder (Some (data, Some q)) (Some s') c) ids skip lazy None =
            (fst (old_grains d ids skip lazy None), Grains (skipn n l) e)) as EO.
    { unfold d, old_grains, session_grains, cfg_of. cbn [d_session d_data d_concat fst]. fold f k.
      fold (take None k s' false f q). rewrite E2, EL, EE. reflexivity. }
    rewrite (IH data q s' c (skipn n l) e Hq); [|rewrite EO; reflexivity|rewrite skipn_length; lia].
    rewrite EO. reflexivity.
Qed.

(** ---------------------------------------------------------------- one file after the other *)

Lemma stops_none k a : Forall (fun pc => is_stop pc = false) a -> stops k a = false.
Proof.
  intros H. unfold stops. apply andb_false_intro2. induction H as [|pc a E H IH]; [reflexivity|]. cbn [existsb]. now rewrite E.
Qed.
Lemma no_stop_no_file a : Forall (fun pc => is_stop pc = false) a -> Forall (fun pc => is_file pc = false) a.
Proof. apply Forall_impl. intros []; cbn [is_stop is_file]; congruence. Qed.
Lemma no_stop_contents c c' : forall a major, Forall (fun pc => is_stop pc = false) a ->
  contents c major a = contents c' major a.
Proof.
  induction a as [|pc a IH]; intros major H; [reflexivity|]. inversion H; subst. destruct pc; cbn [is_stop] in *; try discriminate;
    cbn [contents]; now rewrite (IH major).
Qed.
Lemma no_stop_final c : forall a s, Forall (fun pc => is_stop pc = false) a -> final_sess c s a = s.
Proof.
  induction a as [|pc a IH]; intros s H; [reflexivity|]. inversion H; subst. destruct pc; cbn [is_stop] in *; try discriminate;
    cbn [final_sess]; auto.
Qed.
Lemma contents_end : forall a major, Forall (fun pc => is_stop pc = false) a ->
  contents true major (a ++ [PEnd]) = contents true major a.
Proof.
  induction a as [|pc a IH]; intros major H; [reflexivity|]. inversion H; subst. destruct pc; cbn [is_stop] in *; try discriminate;
    cbn [app contents]; now rewrite IH.
Qed.

Lemma groups_seen k data v l :
  k_mode k = LoadImmediately -> map (view data) l = v -> Forall (fun i => payload_form k data (i_data i)) l ->
  seen_groups (group (map keyed l)) = group (map by_local v).
Proof.
  intros EM EV HF. unfold seen_groups, group. rewrite group_from_map. cbn [map]. f_equal. rewrite <- EV, !map_map. apply map_ext_in.
  intros [m p loc] HI. rewrite Forall_forall in HF. specialize (HF _ HI). unfold keyed, view, by_local. cbn [i_local i_meta i_data fst snd] in *.
  inversion HF as [|d' _ _ Ed|? ? [H|H] _ _|? ? [H|H] _ _]; subst; try congruence; reflexivity.
Qed.

Lemma select_all l : select None l = l. Proof. apply select_none. Qed.

(** One complete file, wherever it is in the input. *)
Lemma decode_here before x rest s0 : complete x ->
  exists r, told x r /\
    decode (mkDecoder (Some (before ++ gsf_bytes x ++ rest, Some (zlen before))) s0 false) None =
    (mkDecoder (Some (before ++ gsf_bytes x ++ rest, Some (zlen (before ++ gsf_bytes x)))) None false, r).
Proof.
  intros ((HH & HP) & a & EP & HS). set (data := before ++ gsf_bytes x ++ rest). set (f := mkFile data 0 false false).
  set (k := mkCfg None LoadImmediately false true true false).
  set (hb := header_bytes (gf_major x) (gf_minor x) (gf_pre x) (gf_head_payload x)) in *.
  assert (At f (zlen before) (hb ++ pieces_bytes a ++ piece_bytes PEnd ++ rest)) as HA.
  { pose proof (At_start data 0 false false) as A0. fold f in A0. unfold data in A0 at 1. apply At_advance in A0.
    rewrite Z.add_0_l in A0. unfold gsf_bytes in A0. rewrite EP, pieces_bytes_app in A0.
    unfold pieces_bytes in A0 at 2. cbn [flat_map] in A0. rewrite app_nil_r, <- !app_assoc in A0. exact A0. }
  unfold decode, decode_all. pose proof (opening_as data (zlen before) s0 false) as O. fold f in O.
  rewrite (file_headers_At f (zlen before) _ false _ _ _ _ _ HH HA) in O. destruct O as (h & EH & ->).
  cbn [s_head] in EH. injection EH as <-. cbn [d_session d_data]. unfold session_grains, cfg_of. cbn [d_concat]. fold f k.
  destruct (Yields_total k a (gsf_sess x) (zlen before + zlen hb)) as (l & s' & HY).
  assert (HPa : Pieces (gf_major x) a).
  { rewrite EP in HP. clear - HP HS. revert HP HS. generalize (gf_major x).
    induction a as [|pc a IH]; intros m HP HS; [constructor|]. inversion HS; subst. cbn [app] in HP.
    inversion HP; subst; cbn [is_stop] in *; try discriminate; constructor; auto. }
  pose proof (At_advance _ _ _ _ HA) as HA2.
  destruct (Yields_views k ((before ++ hb) ++ pieces_bytes a) a (gsf_sess x) (zlen before + zlen hb) l s' (before ++ hb) HY HPa
              eq_refl ltac:(apply zlen_app)) as (H1 & H2 & H3).
  assert (map (view data) l = map (view ((before ++ hb) ++ pieces_bytes a)) l) as HV.
  { apply (Yields_prefix_data k a (gsf_sess x) _ l s' data (piece_bytes PEnd ++ rest) (before ++ hb) HY HPa); [|apply zlen_app].
    unfold data, gsf_bytes. rewrite EP, pieces_bytes_app. unfold pieces_bytes at 2. cbn [flat_map]. rewrite app_nil_r, <- !app_assoc.
    reflexivity. }
  change (k_concat k) with false in *. rewrite (no_stop_final false a _ HS) in H3. subst s'.
  assert (take None k (gsf_sess x) false f (zlen before + zlen hb) =
          mkTaken l (gsf_sess x) (Some (zlen (before ++ gsf_bytes x))) Ended) as ET.
  { rewrite (take_pieces k f a (gsf_sess x) _ (piece_bytes PEnd ++ rest) l (gsf_sess x) HPa HY (no_stop_no_file a HS) eq_refl HA2
               (stops_none k a HS)).
    pose proof (At_advance _ _ _ _ HA2) as HA3. pose proof (At_pos _ _ _ HA3) as Hp3.
    rewrite (take_unfold None k (gsf_sess x) false f _ Hp3) by discriminate.
    rewrite (grain_turn_end k (s_major (gsf_sess x)) f _ rest HA3). change (k_concat k) with false.
    cbv zeta. cbn [t_items t_sess t_pos t_halt]. rewrite app_nil_r. f_equal. f_equal.
    unfold gsf_bytes. fold hb. rewrite EP, pieces_bytes_app, !zlen_app. unfold pieces_bytes at 3. cbn [flat_map].
    rewrite app_nil_r. change (zlen (piece_bytes PEnd)) with 8. lia. }
  unfold take in ET. change (mkSess (gf_major x) (gf_minor x) (Some (gf_head x))) with (gsf_sess x). fold hb. rewrite Z.sub_0_r, ET.
  cbn [t_items t_sess t_pos t_halt]. unfold closing. cbn [d_data d_concat].
  change (s_head (gsf_sess x)) with (Some (gf_head x)). eexists. split; [|reflexivity].
  eexists. split; [reflexivity|].
  rewrite (groups_seen k ((before ++ hb) ++ pieces_bytes a) _ l eq_refl H1 H2). cbn [k k_mode k_ids mode_data].
  rewrite map_id, select_none, EP, contents_end by exact HS. rewrite (no_stop_contents false true a _ HS). reflexivity.
Qed.

Theorem in_turn : forall xs before rest s0, Forall complete xs ->
  exists rs, Forall2 told xs rs /\
    do_calls (mkDecoder (Some (before ++ flat_map gsf_bytes xs ++ rest, Some (zlen before))) s0 false) (repeat (CDecode None) (List.length xs)) =
    (mkDecoder (Some (before ++ flat_map gsf_bytes xs ++ rest, Some (zlen (before ++ flat_map gsf_bytes xs))))
       (match xs with [] => s0 | _ => None end) false, rs).
Proof.
  induction xs as [|x xs IH]; intros before rest s0 HC.
  - exists []. split; [constructor|]. cbn [List.length repeat do_calls flat_map]. rewrite app_nil_r. reflexivity.
  - inversion HC; subst. destruct (decode_here before x (flat_map gsf_bytes xs ++ rest) s0) as (r & T & E); [assumption|].
    destruct (IH (before ++ gsf_bytes x) rest None) as (rs & F & E2); [assumption|].
    exists (r :: rs). split; [constructor; assumption|]. cbn [List.length repeat do_calls do_call flat_map].
    rewrite <- !app_assoc in *. rewrite E, E2. rewrite <- ?app_assoc. destruct xs; reflexivity.
Qed.

(** ---------------------------------------------------------------- the deprecated methods *)

Lemma taken_all d s data p ids skip lazy l s' :
  d_session d = Some s -> d_data d = Some (data, Some p) ->
  grains_loop (fuel_of (mkFile data 0 false false)) (cfg_of d ids (old_mode skip lazy)) s false (mkFile data 0 false false) p = (l, s', Done) ->
  snd (old_grains d ids skip lazy None) = Grains l Ended.
Proof.
  intros ES ED EL. unfold old_grains, session_grains. rewrite ES, ED.
  destruct (loop_take (cfg_of d ids (old_mode skip lazy)) (mkFile data 0 false false) (fuel_of (mkFile data 0 false false)) s false p)
    as [E W]. rewrite EL in E. set (t := grains_take _ _ _ _ _ _ _) in *. cbn [snd].
  apply pair_equal_spec in E. destruct E as [E EO]. apply pair_equal_spec in E. destruct E as [E1 E2].
  rewrite <- E1. f_equal. destruct (t_halt t); [reflexivity|discriminate|congruence].
Qed.

Lemma forms_of c ids skip lazy data l :
  Forall (fun i => payload_form (mkCfg ids (old_mode skip lazy) c true true false) data (i_data i)) l ->
  Forall (fun i => if lazy then later (i_data i) else at_once (i_data i)) l.
Proof.
  apply Forall_impl. intros [m p loc]. cbn [i_data]. intros H. unfold old_mode in H.
  inversion H as [|b [E|[E E']] _|? ? [E|E] _ _|? ? [E|E] _ E']; subst; cbn [k_mode k_back k_lazy] in *;
    destruct lazy, skip; try discriminate; exact I.
Qed.

Lemma mode_of skip lazy (l : list shown) :
  map (mode_data (old_mode skip lazy)) l = map (if skip && negb lazy then without_data else (fun x => x)) l.
Proof. apply map_ext. intros x. unfold old_mode. destruct skip, lazy; reflexivity. Qed.

Theorem old_grains_read x s0 c ids skip lazy : gsf_ok x ->
  exists l,
    snd (do_calls (mkDecoder (Some (gsf_bytes x, Some 0)) s0 c) [CHeaders; CGrains ids skip lazy None]) =
      [Header (gf_head x); Grains l Ended] /\
    map (view (gsf_bytes x)) l =
      map (if skip && negb lazy then without_data else (fun x => x)) (select ids (contents c (gf_major x) (gf_pieces x))) /\
    Forall (fun i => if lazy then later (i_data i) else at_once (i_data i)) l.
Proof.
  intros HX. set (k := mkCfg ids (old_mode skip lazy) c true true false).
  destruct (decode_contents k x [] false false HX ltac:(congruence)) as (l & D & V & F). rewrite app_nil_r in *.
  exists l. split; [|split; [rewrite V; apply mode_of|exact (forms_of _ _ _ _ _ _ F)]].
  unfold decode_file in D. pose proof (opening_as (gsf_bytes x) 0 s0 c) as O.
  destruct (decode_file_headers false (mkFile (gsf_bytes x) 0 false false) 0) as [[s q]|e]; [|discriminate].
  destruct O as (h & EH & EO). cbn [do_calls do_call]. rewrite EO.
  assert (s = gsf_sess x /\ grains_loop (fuel_of (mkFile (gsf_bytes x) 0 false false)) k s false (mkFile (gsf_bytes x) 0 false false) q =
          (l, final_sess c (gsf_sess x) (gf_pieces x), Done)) as [-> EL].
  { match type of D with Ok ?a = Ok ?b => assert (a = b) as D' by congruence end. apply pair_equal_spec in D'. exact D'. }
  change (s_head (gsf_sess x)) with (Some (gf_head x)) in EH.
  assert (h = gf_head x) as -> by congruence.
  assert (snd (old_grains (mkDecoder (Some (gsf_bytes x, Some q)) (Some (gsf_sess x)) c) ids skip lazy None) = Grains l Ended) as EG.
  { eapply taken_all; [reflexivity|reflexivity|exact EL]. }
  destruct (old_grains _ ids skip lazy None) as [d2 r]. cbn [snd] in *. now subst r.
Qed.

Lemma refused_opening data p s0 c major minor rest : u16 major -> u16 minor -> version_ok major = false ->
  At (mkFile data 0 false false) p ((T_SSBB ++ T_grsg) ++ enc_uint 2 major ++ enc_uint 2 minor ++ rest) ->
  opening (mkDecoder (Some (data, Some p)) s0 c) =
  (mkDecoder (Some (data, Some (p + 12))) (Some (mkSess major minor None)) c, Raises EBadVersion).
Proof.
  intros HM Hm HV HA. unfold opening. cbn [d_data d_concat].
  pose proof (Parses_string_bytes 8 (T_SSBB ++ T_grsg) (T_SSBB ++ T_grsg) eq_refl eq_refl _ p _ HA) as P.
  change (clean_string (T_SSBB ++ T_grsg)) with T_SSBBgrsg in P. rewrite P. change (zlist_eqb T_SSBBgrsg T_SSBBgrsg) with true. cbv iota.
  apply At_advance in HA. change (zlen (T_SSBB ++ T_grsg)) with 8 in *.
  unfold decode_ssb_header, bind, ret.
  rewrite (Parses_uint2 major HM _ _ _ HA). apply At_advance in HA. rewrite enc_uint_len in *.
  rewrite (Parses_uint2 minor Hm _ _ _ HA). rewrite enc_uint_len. rewrite HV.
  replace (p + 8 + Z.of_nat 2 + Z.of_nat 2) with (p + 12) by lia. reflexivity.
Qed.

Theorem refused_read major minor ps s0 c ids skip lazy : u16 major -> u16 minor -> ~ (major = 7 \/ major = 8 \/ major = 9) ->
  Pieces major ps ->
  exists l,
    snd (do_calls (mkDecoder (Some (refused_bytes major minor ps, Some 0)) s0 c) [CHeaders; CGrains ids skip lazy None]) =
      [Raises EBadVersion; Grains l Ended] /\
    map (view (refused_bytes major minor ps)) l =
      map (if skip && negb lazy then without_data else (fun x => x)) (select ids (contents c major ps)).
Proof.
  intros HM Hm HV HP. set (k := mkCfg ids (old_mode skip lazy) c true true false).
  set (pre := T_SSBB ++ T_grsg ++ enc_uint 2 major ++ enc_uint 2 minor).
  assert (refused_bytes major minor ps = pre ++ pieces_bytes ps) as ED.
  { unfold refused_bytes, pre. rewrite <- !app_assoc. reflexivity. }
  assert (zlen pre = 12) as EPre.
  { unfold pre. rewrite !zlen_app, !enc_uint_len. reflexivity. }
  rewrite ED. set (data := pre ++ pieces_bytes ps). set (s := mkSess major minor None).
  destruct (Yields_total k ps s 12) as (l & s' & HY). exists l.
  destruct (Yields_views k data ps s 12 l s' pre HY HP eq_refl EPre) as (H1 & H2 & H3).
  split; [|rewrite H1; apply mode_of].
  assert (version_ok major = false) as EV.
  { destruct (version_ok major) eqn:E; [|reflexivity]. apply version_ok_iff in E. contradiction. }
  assert (At (mkFile data 0 false false) 0 ((T_SSBB ++ T_grsg) ++ enc_uint 2 major ++ enc_uint 2 minor ++ pieces_bytes ps)) as HA.
  { replace ((T_SSBB ++ T_grsg) ++ enc_uint 2 major ++ enc_uint 2 minor ++ pieces_bytes ps) with data
      by (unfold data, pre; rewrite <- !app_assoc; reflexivity). apply At_start. }
  cbn [do_calls do_call]. rewrite (refused_opening data 0 s0 c major minor _ HM Hm EV HA). rewrite Z.add_0_l. fold s.
  assert (At (mkFile data 0 false false) 12 (pieces_bytes ps)) as HA2.
  { pose proof (At_start data 0 false false : At _ 0 (pre ++ pieces_bytes ps)) as A. apply At_advance in A. rewrite EPre in A. exact A. }
  assert (snd (old_grains (mkDecoder (Some (data, Some 12)) (Some s) c) ids skip lazy None) = Grains l Ended) as EG.
  { eapply taken_all; [reflexivity|reflexivity|]. change (cfg_of _ ids (old_mode skip lazy)) with k.
    fold (run k s false (mkFile data 0 false false) 12).
    rewrite (run_pieces k (mkFile data 0 false false) ps s 12 [] l s' HP HY eq_refl) by (rewrite app_nil_r; exact HA2).
    destruct (stops k ps); [reflexivity|]. rewrite run_eof; [cbn [prepend]; rewrite app_nil_r; reflexivity| |].
    - pose proof (zlen_nonneg (pieces_bytes ps)). lia.
    - cbn [f_data]. unfold data. rewrite zlen_app. lia. }
  destruct (old_grains _ ids skip lazy None) as [d2 r]. cbn [snd] in *. now subst r.
Qed.

Lemma opening_replies d : match snd (opening d) with Header _ | Raises _ | Unknown => True | _ => False end.
Proof.
  unfold opening. destruct (d_data d) as [[data [p|]]|]; try exact I.
  destruct (read_string 8 _ p) as [[t p1]|e]; [|exact I]. destruct (zlist_eqb t T_SSBBgrsg); [|exact I].
  destruct (decode_ssb_header true _ p1) as [[[major minor] p2]|e]; [|exact I]. destruct (version_ok major); [|exact I].
  destruct (eof_to_decode _ _ p2) as [[h p3]|e]; exact I.
Qed.

(** Without a session there are no grains; decode closes its session, whatever the decoder was. *)
Theorem needs_session d ids skip lazy limit :
  (snd (old_grains d ids skip lazy limit) = Raises ERuntime <-> d_session d = None) /\
  (d_session d = None -> fst (old_grains d ids skip lazy limit) = d) /\
  (forall s h l, snd (decode d s) = Groups h l ->
     snd (old_grains (fst (decode d s)) ids skip lazy limit) = Raises ERuntime).
Proof.
  assert (forall d, snd (old_grains d ids skip lazy limit) = Raises ERuntime <-> d_session d = None) as A.
  { intros [dd [s|] c]; unfold old_grains; cbn [d_session d_data]; [|split; reflexivity].
    split; [|discriminate]. destruct dd as [[data [p|]]|]; cbn [session_grains snd]; discriminate. }
  split; [apply A|]. split.
  - intros E. unfold old_grains. now rewrite E.
  - intros s h l E. apply A. revert E. unfold decode. generalize (match s with Some b => mkDecoder (Some (b, Some 0)) (d_session d) (d_concat d) | None => d end).
    clear. intros d. unfold decode_all. pose proof (opening_replies d) as NG.
    destruct (opening d) as [d1 []]; cbn [snd fst] in *; try discriminate; try contradiction.
    destruct (d_session d1) as [s1|]; [|discriminate]. destruct (d_data d1) as [[data [p|]]|]; try discriminate.
      destruct (session_grains d1 s1 data p None LoadImmediately None) as [d2 t]. reflexivity.
Qed.
