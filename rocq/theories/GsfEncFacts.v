(** The encoder properties in their final form. *)
From Verif Require Import Base BaseProofs Utf8 Utf8Proofs GsfPrim GsfPrimProofs GsfBlock GsfBlockProofs
  GsfDecode CogEnums GsfEncode GsfSpec GsfCodecProofs GsfEncodeProofs GsfFileSpec GsfFileProofs GsfFileFacts GsfEncState GsfEncSpec
  GsfEncStateProofs GsfEncSession GsfEncInv GsfEncFile GsfEncDecodeSpec GsfEncDecode.
From Coq Require Import ZifyBool ZifyNat.
Ltac Zify.zify_post_hook ::= Z.div_mod_to_equations.

Lemma fits_encodable major gs : Forall (grain_fits major) gs -> Forall (encodable major) gs.
Proof. intros H. eapply Forall_impl; [|exact H]. intros [l g] (_ & HG & _). exact (enc_grain_ok major l g HG). Qed.

(** ---------------------------------------------------------------- round trips (C06) *)

Theorem at_once_roundtrip e ops : reachable e -> at_once e ops -> prior (e_out e) = [] ->
  head_fits e -> Forall (fun s => i64 (total s)) (e_segs e) -> Forall (grain_fits (e_major e)) (waiting (e_segs e)) ->
  reads_as e total (waiting (e_segs e)) (o_data (e_out (run_ops e ops))).
Proof.
  intros HR HO HP HH HC HG. destruct (at_once_file e ops HR HO (fits_encodable _ _ HG)) as (-> & _).
  rewrite HP. apply complete_reads; assumption.
Qed.

Theorem batch_roundtrip e ops logs hist : reachable e -> idle e -> batch e ops hist -> GivenAll (keys_of e) ops logs ->
  prior (e_out e) = [] -> head_fits e -> Forall (fun s => i64 (final_count true logs s)) (e_segs e) ->
  Forall (grain_fits (e_major e)) (waiting (e_segs e) ++ logs) ->
  reads_as e (final_count true logs) (segment_by_segment (e_segs e) (waiting (e_segs e) ++ logs))
    (o_data (e_out (run_ops e hist))).
Proof.
  intros HR HI HB HGA HP HH HC HG. rewrite (batch_complete e ops logs hist HR HI HB HGA (fits_encodable _ _ HG)), HP.
  apply complete_reads; [assumption..|]. unfold segment_by_segment. apply Forall_flat_map, Forall_forall. intros s _.
  apply Forall_map, Forall_forall. intros g HX. unfold of_segment in HX. apply in_map_iff in HX as ([l g'] & <- & HX).
  apply filter_In in HX as [HX E]. rewrite Forall_forall in HG. cbn [fst snd] in *. apply Z.eqb_eq in E as <-. exact (HG _ HX).
Qed.

(** ---------------------------------------------------------------- crash during streaming (C18) *)

Theorem stream_crash e async o c ops logs : streams e async o c -> (async = false -> from_encoder e) ->
  Forall (client_of async (length (e_sess e))) ops -> SentAll (e_major e) (keys_of e) (length (e_sess e)) ops logs ->
  prior (e_out e) = [] -> head_fits e -> Forall (grain_fits (e_major e)) (waiting (e_segs e) ++ logs) ->
  reads_as e (fun _ => -1) (waiting (e_segs e) ++ logs) (o_data (e_out (run_ops e (o :: ops)))).
Proof.
  intros HO HF HC HS HP HH HG. apply Forall_app in HG as HG'. destruct HG' as [HG1 HG2].
  rewrite (stream_so_far e async o c ops logs HO (fits_encodable _ _ HG1) HF HC HS), HP.
  apply so_far_reads; [assumption| |assumption]. apply Forall_forall. intros s _. unfold i64. lia.
Qed.

Theorem stream_roundtrip e async o c ops logs : streams e async o c -> (async = false -> from_encoder e) ->
  Forall (client_of async (length (e_sess e))) ops -> SentAll (e_major e) (keys_of e) (length (e_sess e)) ops logs ->
  prior (e_out e) = [] -> head_fits e -> Forall (fun s => i64 (final_count (o_seek (e_out e)) logs s)) (e_segs e) ->
  Forall (grain_fits (e_major e)) (waiting (e_segs e) ++ logs) ->
  reads_as e (final_count (o_seek (e_out e)) logs) (waiting (e_segs e) ++ logs)
    (o_data (e_out (run_ops e (o :: ops ++ [c])))).
Proof.
  intros HO HF HC HS HP HH HI HG. apply Forall_app in HG as HG'. destruct HG' as [HG1 HG2].
  rewrite (stream_complete e async o c ops logs HO (fits_encodable _ _ HG1) HF HC HS), HP.
  apply complete_reads; assumption.
Qed.

(** ---------------------------------------------------------------- streaming against all at once (C16) *)

Lemma of_segment_none l segs gs : ~ In l (map st_local segs) -> of_segment l (segment_by_segment segs gs) = [].
Proof.
  intros H. unfold segment_by_segment. induction segs as [|s t IH]; [reflexivity|]. cbn [map flat_map] in *.
  rewrite of_segment_app, of_segment_pairs, IH by (intros X; apply H; right; exact X). destruct (st_local s =? l) eqn:E; [|reflexivity].
  exfalso. apply H. left. lia.
Qed.

Lemma of_segment_sorted l segs gs : NoDup (map st_local segs) -> In l (map st_local segs) ->
  of_segment l (segment_by_segment segs gs) = of_segment l gs.
Proof.
  intros HN HI. unfold segment_by_segment. induction segs as [|s t IH]; [contradiction|]. cbn [map flat_map] in *.
  apply NoDup_cons_iff in HN as [H1 H2]. rewrite of_segment_app, of_segment_pairs. destruct (st_local s =? l) eqn:E.
  - replace l with (st_local s) in * by lia. fold (segment_by_segment t gs). rewrite of_segment_none by exact H1. apply app_nil_r.
  - cbn [app]. apply IH; [exact H2|]. destruct HI as [HI|HI]; [lia|exact HI].
Qed.

Lemma of_segment_absent l gs : Forall (fun x => fst x <> l) gs -> of_segment l gs = [].
Proof.
  intros H. unfold of_segment. induction H as [|x gs Hx H IH]; [reflexivity|]. cbn [filter].
  destruct (fst x =? l) eqn:E; [lia|exact IH].
Qed.

Lemma given_known keys ops logs : GivenAll keys ops logs -> Forall (fun x => In (fst x) (map fst keys)) logs.
Proof.
  intros H. induction H as [|o ops log logs HG HA IH]; [constructor|]. apply Forall_app. split; [|exact IH].
  assert (forall l (gs : list grain), In l (map fst keys) -> Forall (fun x => In (fst x) (map fst keys)) (map (pair l) gs)) as HM.
  { intros l gs Hl. apply Forall_map, Forall_forall. intros g _. exact Hl. }
  assert (forall l sid local, lowest l (candidates keys sid local) -> In l (map fst keys)) as HL.
  { intros l sid local [Hl _]. unfold candidates in Hl. apply in_map_iff in Hl as (k & <- & Hl). apply filter_In in Hl as [Hl _].
    apply in_map, Hl. }
  destruct HG; apply HM; eauto.
Qed.

Lemma waiting_known segs : Forall (fun x => In (fst x) (map st_local segs)) (waiting segs).
Proof.
  unfold waiting. apply Forall_flat_map, Forall_forall. intros s HI. apply Forall_map, Forall_forall. intros g _. cbn [fst]. apply in_map, HI.
Qed.

(** Two encoders with the same contents. *)
Definition same_contents (a b : enc) : Prop :=
  e_major a = e_major b /\ e_minor a = e_minor b /\ e_id a = e_id b /\ e_created a = e_created b /\
  e_tags a = e_tags b /\ e_segs a = e_segs b.

Lemma keys_same a b : same_contents a b -> keys_of a = keys_of b.
Proof. intros (_ & _ & _ & _ & _ & E). unfold keys_of. now rewrite E. Qed.

Lemma sorted_same_segment e logs l : NoDup (map st_local (e_segs e)) ->
  Forall (fun x => In (fst x) (map fst (keys_of e))) logs ->
  of_segment l (segment_by_segment (e_segs e) (waiting (e_segs e) ++ logs)) = of_segment l (waiting (e_segs e) ++ logs).
Proof.
  intros HN HK. destruct (in_dec Z.eq_dec l (map st_local (e_segs e))) as [HI|HI].
  - apply of_segment_sorted; assumption.
  - rewrite of_segment_none by exact HI. symmetry. apply of_segment_absent. apply Forall_app. split.
    + eapply Forall_impl; [|apply waiting_known]. cbv beta. intros x HX E. subst l. contradiction.
    + eapply Forall_impl; [|exact HK]. cbv beta. intros x HX E. subst l. unfold keys_of in HX. rewrite map_map in HX. contradiction.
Qed.

Theorem stream_is_batch e1 e2 async o c ops1 ops2 logs hist : same_contents e1 e2 ->
  o_seek (e_out e1) = true -> o_seek (e_out e2) = true -> reachable e2 -> idle e2 ->
  streams e1 async o c -> (async = false -> from_encoder e1) -> Forall (client_of async (length (e_sess e1))) ops1 ->
  SentAll (e_major e1) (keys_of e1) (length (e_sess e1)) ops1 logs ->
  batch e2 ops2 hist -> GivenAll (keys_of e2) ops2 logs ->
  Forall (encodable (e_major e1)) (waiting (e_segs e1) ++ logs) ->
  segment_by_segment (e_segs e1) (waiting (e_segs e1) ++ logs) = waiting (e_segs e1) ++ logs ->
  o_data (e_out (run_ops e1 (o :: ops1 ++ [c]))) = o_data (e_out (run_ops e2 hist)).
Proof.
  intros (S1 & S2 & S3 & S4 & S5 & S6) HK1 HK2 HR HI HO HF HC HS HB HG HE HSORT.
  apply Forall_app in HE as HE'. destruct HE' as [HE1 _].
  rewrite (stream_complete e1 async o c ops1 logs HO HE1 HF HC HS).
  rewrite (batch_complete e2 ops2 logs hist HR HI HB HG) by (rewrite <- S6, <- S1; exact HE).
  unfold prior. rewrite HK1, HK2, <- S6, HSORT, <- S5. cbn [app]. apply complete_file_eq; assumption.
Qed.

Theorem stream_like_batch e1 e2 async o c ops1 ops2 logs hist : same_contents e1 e2 ->
  o_seek (e_out e1) = true -> o_seek (e_out e2) = true -> reachable e2 -> idle e2 ->
  streams e1 async o c -> (async = false -> from_encoder e1) -> Forall (client_of async (length (e_sess e1))) ops1 ->
  SentAll (e_major e1) (keys_of e1) (length (e_sess e1)) ops1 logs ->
  batch e2 ops2 hist -> GivenAll (keys_of e2) ops2 logs ->
  head_fits e1 -> Forall (fun s => i64 (final_count true logs s)) (e_segs e1) ->
  Forall (grain_fits (e_major e1)) (waiting (e_segs e1) ++ logs) ->
  exists gs1 gs2, (forall l, of_segment l gs1 = of_segment l gs2) /\
    reads_as e1 (final_count true logs) gs1 (o_data (e_out (run_ops e1 (o :: ops1 ++ [c])))) /\
    reads_as e1 (final_count true logs) gs2 (o_data (e_out (run_ops e2 hist))).
Proof.
  intros (S1 & S2 & S3 & S4 & S5 & S6) HK1 HK2 HR HI HO HF HC HS HB HG HH HIC HE.
  assert (prior (e_out e1) = [] /\ prior (e_out e2) = []) as [P1 P2] by (unfold prior; rewrite HK1, HK2; auto).
  exists (waiting (e_segs e1) ++ logs), (segment_by_segment (e_segs e1) (waiting (e_segs e1) ++ logs)).
  split; [|split].
  - intros l. symmetry. apply sorted_same_segment.
    + rewrite S6. apply reachable_inv in HR as [HR _]. apply (si_nodup _ _ HR).
    + unfold keys_of. rewrite S6. apply (given_known _ _ _ HG).
  - pose proof (stream_roundtrip e1 async o c ops1 logs HO HF HC HS P1 HH) as H. rewrite HK1 in H. auto.
  - assert (head_fits e2) as HH2.
    { unfold head_fits. rewrite <- S1, <- S2, <- S3, <- S4, <- S5, <- S6. exact HH. }
    pose proof (batch_roundtrip e2 ops2 logs hist HR HI HB HG P2 HH2) as H. rewrite <- S6, <- S1 in H. specialize (H HIC HE).
    unfold reads_as in *. rewrite <- S1, <- S2, <- S3, <- S4, <- S5, <- S6 in H. exact H.
Qed.

(** ---------------------------------------------------------------- counts (C17) *)

(** The number of grains of each segment that a reader finds is the count in the header, for a first dump. *)
Theorem first_dump_counts e ops logs hist : reachable e -> idle e -> batch e ops hist -> GivenAll (keys_of e) ops logs ->
  Forall (encodable (e_major e)) (waiting (e_segs e) ++ logs) -> Forall (fun s => st_wc s = 0) (e_segs e) ->
  exists gs, o_data (e_out (run_ops e hist)) =
    prior (e_out e) ++ complete_file e (with_counts (fun s => occurs (st_local s) gs) (e_segs e)) (e_tags e) gs.
Proof.
  intros HR HI HB HG HE HW. eexists. rewrite (batch_complete e ops logs hist HR HI HB HG HE). f_equal. f_equal.
  assert (NoDup (map st_local (e_segs e))) as HN by (apply reachable_inv in HR as [HR _]; apply (si_nodup _ _ HR)).
  unfold with_counts. apply map_ext_in. intros s HIn. f_equal. unfold final_count, total. rewrite Forall_forall in HW. rewrite (HW s HIn).
  unfold occurs. rewrite of_segment_sorted; [|exact HN|apply in_map, HIn]. fold (occurs (st_local s) (waiting (e_segs e) ++ logs)).
  rewrite occurs_waiting by assumption. unfold occurs. lia.
Qed.

Theorem first_stream_counts e async o c ops logs : reachable e -> streams e async o c -> (async = false -> from_encoder e) ->
  Forall (client_of async (length (e_sess e))) ops -> SentAll (e_major e) (keys_of e) (length (e_sess e)) ops logs ->
  Forall (encodable (e_major e)) (waiting (e_segs e)) -> Forall (fun s => st_wc s = 0) (e_segs e) ->
  let gs := waiting (e_segs e) ++ logs in
  o_data (e_out (run_ops e (o :: ops ++ [c]))) =
    prior (e_out e) ++
    complete_file e (with_counts (fun s => if o_seek (e_out e) then occurs (st_local s) gs else -1) (e_segs e)) (e_tags e) gs.
Proof.
  intros HR HO HF HC HS HE HW. cbv zeta. rewrite (stream_complete e async o c ops logs HO HE HF HC HS). f_equal. f_equal.
  assert (NoDup (map st_local (e_segs e))) as HN by (apply reachable_inv in HR as [HR _]; apply (si_nodup _ _ HR)).
  unfold with_counts. apply map_ext_in. intros s HIn. f_equal. unfold final_count. destruct (o_seek (e_out e)); [|reflexivity].
  unfold total. rewrite Forall_forall in HW. rewrite (HW s HIn), occurs_waiting by assumption. lia.
Qed.

(** Back-patching: the bytes are the same up to the 8-byte count fields. *)
Lemma segs_fill segs : forall pre post, exists frags last, length frags = length segs /\
  forall c', pre ++ segs_bytes (with_counts c' segs) ++ post = fill frags (map c' segs) last.
Proof.
  induction segs as [|s t IH]; intros pre post.
  - exists [], (pre ++ post). split; reflexivity.
  - destruct (IH (enc_flow (es_flow (st_e s)) ++ flat_map enc_tag (es_tags (st_e s))) post) as (frags & last & HL & HE).
    exists ((pre ++ enc_segm_prefix (st_e s)) :: frags), last. split; [cbn [length]; now rewrite HL|].
    intros c'. cbn [map fill]. rewrite <- HE. unfold with_counts, segs_bytes. cbn [map flat_map fst snd]. unfold enc_segm.
    rewrite <- !app_assoc. reflexivity.
Qed.

Theorem counts_backpatched e async o c ops logs : streams e async o c -> (async = false -> from_encoder e) ->
  Forall (client_of async (length (e_sess e))) ops -> SentAll (e_major e) (keys_of e) (length (e_sess e)) ops logs ->
  Forall (encodable (e_major e)) (waiting (e_segs e)) ->
  exists frags last, length frags = length (e_segs e) /\
    o_data (e_out (run_ops e (o :: ops))) = fill frags (map (fun _ => -1) (e_segs e)) last /\
    o_data (e_out (run_ops e (o :: ops ++ [c]))) =
      fill frags (map (final_count (o_seek (e_out e)) logs) (e_segs e)) last ++ terminator.
Proof.
  intros HO HF HC HS HE.
  rewrite (stream_so_far e async o c ops logs HO HE HF HC HS), (stream_complete e async o c ops logs HO HE HF HC HS).
  unfold complete_file. rewrite !file_so_far_split, !map_fst_counts, !app_assoc.
  destruct (segs_fill (e_segs e)
    ((prior (e_out e) ++ enc_file_header (e_major e) (e_minor e)) ++ enc_head_prefix (e_id e) (e_created e) (map st_e (e_segs e)) (e_tags e))
    (flat_map enc_tag (e_tags e) ++ flat_map (gbytes (e_major e)) (waiting (e_segs e) ++ logs))) as (frags & last & HL & HEQ).
  exists frags, last. split; [exact HL|]. rewrite <- !HEQ, <- !app_assoc. split; reflexivity.
Qed.

(** ---------------------------------------------------------------- a second dump (C21) *)

Lemma at_once_state e ops : sess_inv e -> at_once e ops -> Forall (encodable (e_major e)) (waiting (e_segs e)) ->
  exists e0 n async, (e0 = e \/ e0 = fst (open_session e false)) /\ (n < length (e_sess e0))%nat /\
    run_ops e ops = close_session (started e0 n true) n async.
Proof.
  intros HS HO HW. destruct HO as [n EF ES|n EF ES|].
  - exists e, n, false. split; [auto|]. split; [apply HS; auto|]. cbn [run_ops step]. unfold leave. rewrite ES, EF.
    rewrite start_dump_ok by exact HW. reflexivity.
  - exists e, n, true. split; [auto|]. split; [apply HS; auto|]. cbn [run_ops step]. unfold leave. rewrite ES, EF.
    rewrite start_dump_ok by exact HW. reflexivity.
  - exists (fst (open_session e false)), (length (e_sess e)), false. split; [auto|]. cbn [run_ops step].
    pose proof (open_session_fields e false) as HF. destruct (open_session e false) as [e1 n].
    destruct HF as (F1 & F2 & F3 & F4 & F5 & F6 & F7 & F8 & F9 & F10 & F11 & F12 & _). cbn [fst]. subst n. split; [lia|].
    rewrite start_dump_ok by (rewrite F2, F4; exact HW). cbn [fst].
    change (e_sync (started e1 (length (e_sess e)) true)) with (e_sync e1). rewrite (F12 eq_refl). reflexivity.
Qed.

Lemma Forall_upd_nth {A} (P : A -> Prop) f l : Forall P l -> (forall x, P (f x)) -> forall n, Forall P (upd_nth n f l).
Proof.
  intros H Hf. induction H as [|x l Hx Hl IH]; intros [|n]; cbn [upd_nth]; constructor; auto.
Qed.

Lemma at_once_after e ops : reachable e -> idle e -> at_once e ops -> Forall (encodable (e_major e)) (waiting (e_segs e)) ->
  same_contents (run_ops e ops) (set_segs e (map flush (map activate (e_segs e)))) /\ idle (run_ops e ops).
Proof.
  intros HR HI HO HW. destruct (at_once_file e ops HR HO HW) as (_ & ES & _).
  apply reachable_inv in HR as [_ HS]. destruct (at_once_state e ops HS HO HW) as (e0 & n & async & H0 & Hn & E).
  unfold same_contents. rewrite ES. rewrite E. clear ES.
  assert (e_major e0 = e_major e /\ e_minor e0 = e_minor e /\ e_id e0 = e_id e /\ e_created e0 = e_created e /\ e_tags e0 = e_tags e /\ idle e0)
    as (C1 & C2 & C3 & C4 & C5 & C6).
  { destruct H0 as [-> | ->]; [auto 10|].
    do 5 (split; [reflexivity|]). unfold idle in *. cbn [open_session fst set_sync set_sess e_sess].
    apply Forall_app. split; [exact HI|repeat constructor]. }
  pose proof (proj1 (get_ss_active e0 n true n Hn)) as HA. rewrite Nat.eqb_refl in HA.
  unfold close_session, end_dump. change (get_ss (started e0 n true) n) with (get_ss (set_active e0 n true) n). rewrite HA.
  split.
  - destruct async; cbn; auto 10.
  - unfold idle. assert (forall l, Forall (fun s => ss_active s = false) l ->
      Forall (fun s => ss_active s = false) (upd_nth n (fun s => mkSs (ss_async s) (ss_next s) false) (upd_nth n (fun s => mkSs (ss_async s) (ss_next s) true) l))) as HU.
    { intros l Hl. rewrite upd_nth_twice. cbn. apply Forall_upd_nth; [exact Hl|reflexivity]. }
    destruct async; apply HU, C6.
Qed.

Theorem second_dump e ops1 ops2 logs hist : reachable e -> idle e -> at_once e ops1 ->
  Forall (encodable (e_major e)) (waiting (e_segs e)) ->
  batch (run_ops e ops1) ops2 hist -> GivenAll (keys_of e) ops2 logs -> Forall (encodable (e_major e)) logs ->
  o_data (e_out (run_ops e (ops1 ++ hist))) =
    prior (e_out (run_ops e ops1)) ++
    complete_file e (with_counts (fun s => total s + occurs (st_local s) logs) (e_segs e)) (e_tags e)
      (segment_by_segment (e_segs e) logs).
Proof.
  intros HR HI HO HW HB HG HE. destruct (at_once_after e ops1 HR HI HO HW) as [(A1 & A2 & A3 & A4 & A5 & A6) AI].
  cbn [set_segs e_major e_minor e_id e_created e_tags e_segs] in *. rewrite run_app.
  assert (waiting (map flush (map activate (e_segs e))) = []) as EW.
  { clear. unfold waiting. generalize (e_segs e). intros l. induction l as [|s t IH]; [reflexivity|].
    cbn [map flat_map flush st_grains app]. exact IH. }
  rewrite (batch_complete (run_ops e ops1) ops2 logs hist); [|apply reachable_step, HR|exact AI|exact HB| |].
  - rewrite A6, EW, A5. cbn [app]. f_equal.
    rewrite (complete_file_eq _ e) by assumption. unfold segment_by_segment. rewrite !flat_map_concat_map, !map_map. cbn [flush activate].
    change (st_local (flush (activate ?s))) with (st_local s). f_equal. unfold with_counts. rewrite !map_map. apply map_ext. intros s.
    unfold final_count, total. cbn [flush activate st_wc st_grains st_e]. rewrite (zlen_nil (A:=grain)).
    change (st_local (flush (activate s))) with (st_local s). f_equal. lia.
  - unfold keys_of in *. rewrite A6, !map_map. exact HG.
  - rewrite A6, EW, A1. exact HE.
Qed.

(** So the counts of the second file are those of its grains exactly for segments of which the first dump wrote none. *)
Theorem second_dump_counts e s logs : reachable e -> In s (e_segs e) ->
  (total s + occurs (st_local s) logs = occurs (st_local s) (segment_by_segment (e_segs e) logs) <-> total s = 0).
Proof.
  intros HR HI. apply reachable_inv in HR as [HR _]. unfold occurs at 2.
  rewrite of_segment_sorted; [|apply (si_nodup _ _ HR)|apply in_map, HI]. fold (occurs (st_local s) logs). lia.
Qed.
