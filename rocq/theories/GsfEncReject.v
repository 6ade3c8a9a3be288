(** Header changes during a synchronous dump are refused and have no effect. *)
From Verif Require Import Base BaseProofs Utf8 Utf8Proofs GsfPrim GsfPrimProofs GsfBlock GsfBlockProofs
  GsfDecode CogEnums GsfEncode GsfSpec GsfEncodeProofs GsfEncState GsfEncSpec GsfEncStateProofs GsfEncSession GsfEncInv GsfEncFile.
From Coq Require Import ZifyBool ZifyNat.
Ltac Zify.zify_post_hook ::= Z.div_mod_to_equations.

Lemma accepted_total major l gs : exists log, Accepted major l gs log.
Proof.
  assert (exists a b, gs = a ++ b /\ Forall (fun g => encodable major (l, g)) a /\
            (b = [] \/ exists g t, b = g :: t /\ ~ encodable major (l, g))) as (a & b & -> & HA & HB).
  { induction gs as [|g gs (a & b & -> & HA & HB)]; [exists [], []; auto|].
    destruct (enc_grain major l g) as [bs|x] eqn:E.
    - exists (g :: a), b. split; [reflexivity|]. split; [constructor; [exists bs; exact E|exact HA]|exact HB].
    - exists [], (g :: a ++ b). split; [reflexivity|]. split; [constructor|]. right. exists g, (a ++ b). split; [reflexivity|].
      intros [bs HX]. cbn [fst snd] in HX. congruence. }
  destruct HB as [-> |(g & t & -> & HN)].
  - rewrite app_nil_r. eexists. apply Ac_all, HA.
  - eexists. apply Ac_stop; assumption.
Qed.

Lemma routed_total major segs sid local gs : exists log, Routed major (keys segs) sid local gs log.
Proof.
  destruct (candidates_cases segs sid local) as [H|[l H]]; [exists []; apply Ro_none, H|].
  destruct (accepted_total major l gs) as [log HA]. exists log. eapply Ro_some; eassumption.
Qed.

Lemma sent_total major segs n o : client n o -> exists log, Sent major (keys segs) n o log.
Proof.
  intros HC. destruct o; cbn [client] in HC; try contradiction; try subst; try (eexists; constructor; fail).
  - destruct (routed_total major segs sid local gs) as [log H]. exists log. constructor. exact H.
  - destruct (routed_total major segs sid local gs) as [log H]. exists log. constructor. exact H.
  - destruct (routed_total major segs None (Some local) gs) as [log H]. exists log. constructor. exact H.
Qed.

Lemma sent_all_total major segs n ops : Forall (client n) ops -> exists logs, SentAll major (keys segs) n ops logs.
Proof.
  intros H. induction H as [|o ops Ho H [logs IH]]; [exists []; constructor|].
  destruct (sent_total major segs n o Ho) as [log HS]. exists (log ++ logs). constructor; assumption.
Qed.

Lemma start_dumping e o c : starts e o c -> Forall (encodable (e_major e)) (waiting (e_segs e)) -> from_encoder e ->
  dumping (fst (step e o)) false (length (e_sess e)).
Proof.
  intros HO HW HF.
  assert (exists aao, step e o = let (e1, n) := open_session e false in start_dump e1 n aao) as [aao EO].
  { destruct HO as [E|aao]; cbn [step]; unfold enter; rewrite ?E; eexists; reflexivity. }
  rewrite EO. pose proof (open_session_fields e false) as HP. destruct (open_session e false) as [e1 n].
  destruct HP as (-> & F2 & F3 & F4 & F5 & F6 & F7 & F8 & F9 & F10 & F11 & F12 & F13). set (n := length (e_sess e)) in *.
  rewrite start_dump_ok by (rewrite F2, F4; exact HW). cbn [fst].
  pose proof (get_ss_active e1 n true n ltac:(lia)) as (G1 & G2 & _). rewrite Nat.eqb_refl in G1.
  constructor.
  - apply at_end_append, at_end_reset.
  - exact G1.
  - change (ss_async (get_ss (set_active e1 n true) n) = false). rewrite G2. exact F11.
  - intros H. exact (F12 H).
  - unfold started. cbn [set_out set_segs e_segs]. apply Forall_map. cbn [flush st_active]. apply placed_segs_active.
  - intros H. unfold started. cbn [set_out set_segs e_segs]. apply Forall_map. cbn [flush st_parent].
    apply (placed_segs_parent e1 aao (fun p => p = ParEncoder \/ p = ParOpen n)). rewrite F2.
    eapply Forall_impl; [|exact HF]. auto.
Qed.

Lemma seg_change_refused e l f : Forall (fun s => st_active s = true) (e_segs e) ->
  (In l (locals e) /\ seg_change e l f = (e, Err EActive)) \/ (~ In l (locals e) /\ seg_change e l f = (e, Err EKey)).
Proof.
  intros HA. unfold seg_change. destruct (find_seg l (e_segs e)) as [s|] eqn:E.
  - left. apply find_seg_some in E as [HI HL]. split; [unfold locals; rewrite <- HL; now apply in_map|].
    rewrite Forall_forall in HA. now rewrite (HA _ HI).
  - right. apply find_seg_none in E. now split.
Qed.

Lemma header_change_rejected e n h : dumping e false n -> header_change n h ->
  (exists x, snd (step e h) = Err x /\ refusal (locals e) h x) /\ exists v, fst (step e h) = set_ss_next e n v.
Proof.
  intros D HC.
  assert (exists v, e = set_ss_next e n v) as HS by (exists (ss_next (get_ss e n)); symmetry; apply set_ss_next_self).
  destruct HC as [kv|id local tags|kv|id local tags|l kv|l fl]; cbn [step].
  - rewrite (d_sync _ _ _ D eq_refl). split; [eexists; split; [reflexivity|constructor]|exact HS].
  - unfold enc_add_segment. rewrite (d_sync _ _ _ D eq_refl). split; [eexists; split; [reflexivity|constructor]|exact HS].
  - rewrite (d_active _ _ _ D). split; [eexists; split; [reflexivity|constructor]|exact HS].
  - unfold open_add_segment. rewrite (d_active _ _ _ D). cbn [set_ss_next set_sess e_segs].
    destruct (find_seg _ _) as [s|] eqn:E; unfold drop; cbn [fst snd]; (split; [eexists; split; [reflexivity|]|eexists; reflexivity]).
    + destruct local as [l|]; [|constructor]. apply Rf_dup. apply find_seg_some in E as [HI HL]. cbn [pick_local] in HL.
      unfold locals. rewrite <- HL. now apply in_map.
    + constructor. intros l ->. apply find_seg_none in E. exact E.
  - destruct (seg_change_refused e l (add_seg_tag kv) (d_segs _ _ _ D)) as [[HI ->]|[HI ->]];
      (split; [eexists; split; [reflexivity|]|exact HS]); constructor; assumption.
  - destruct (seg_change_refused e l (set_seg_flow fl) (d_segs _ _ _ D)) as [[HI ->]|[HI ->]];
      (split; [eexists; split; [reflexivity|]|exact HS]); constructor; assumption.
Qed.

Lemma close_out e n v c : (c = Exit /\ e_streaming e = true \/ c = EndDump) -> e_sync e = Some n ->
  e_out (fst (step (set_ss_next e n v) c)) = e_out (fst (step e c)).
Proof.
  intros HC ES. assert (forall x, e_out (close_session (set_ss_next x n v) n false) = e_out (close_session x n false)) as HX.
  { intros x. rewrite !(proj1 (close_session_fields _ _ _)). unfold end_dump.
    rewrite (proj1 (get_ss_set_next x n v n)). destruct (ss_active _); reflexivity. }
  destruct HC as [[-> EF]| ->]; cbn [step]; unfold leave; change (e_sync (set_ss_next e n v)) with (e_sync e); rewrite ES;
    change (e_streaming (set_ss_next e n v)) with (e_streaming e); rewrite ?EF; apply HX.
Qed.

Theorem header_change_harmless e o c ops h ops' tail : starts e o c ->
  Forall (encodable (e_major e)) (waiting (e_segs e)) -> from_encoder e ->
  let n := length (e_sess e) in
  Forall (client n) ops -> header_change n h -> Forall (client n) ops' -> tail = [] \/ tail = [c] ->
  (exists x, snd (step (run_ops e (o :: ops)) h) = Err x /\ refusal (locals (run_ops e (o :: ops))) h x) /\
  e_out (run_ops e (o :: ops ++ h :: ops' ++ tail)) = e_out (run_ops e (o :: ops ++ ops' ++ tail)).
Proof.
  intros HO HW HF n HC1 HH HC2 HT. pose proof (start_dumping e o c HO HW HF) as D. fold n in D. cbn [run_ops].
  rewrite !run_app. cbn [run_ops]. rewrite !run_app.
  assert (e_streaming (fst (step e o)) = e_streaming e) as EF.
  { assert (forall x, e_streaming (fst (let (e1, m) := open_session e false in start_dump e1 m x)) = e_streaming e) as HX.
    { intros x. pose proof (open_session_fields e false) as HP. destruct (open_session e false) as [e1 m].
      destruct HP as (_ & _ & _ & _ & _ & _ & _ & _ & F9 & _). rewrite <- F9. apply (start_dump_frame e1 m x). }
    destruct HO as [E|x]; [|apply HX].
    assert (step e Enter = let (e1, m) := open_session e false in start_dump e1 m false) as -> by (cbn [step]; unfold enter; rewrite E; reflexivity).
    apply HX. }
  set (e1 := fst (step e o)) in *.
  destruct (sent_all_total (e_major e1) (e_segs e1) n ops HC1) as [log1 S1].
  destruct (sent_all_total (e_major e1) (e_segs e1) n ops' HC2) as [log2 S2].
  pose proof (run_wrote e1 false n ops log1 D HC1 S1 [] e1 (wrote_refl e1 n)) as W1. cbn [app] in W1.
  set (e2 := run_ops e1 ops) in *. pose proof (wrote_dumping _ _ _ _ _ W1 D) as D2.
  destruct (header_change_rejected e2 n h D2 HH) as [HR [v EV]]. split; [exact HR|]. rewrite EV.
  pose proof (run_wrote e1 false n ops' log2 D HC2 S2 log1 e2 W1) as W2.
  pose proof (run_wrote e1 false n ops' log2 D HC2 S2 log1 _ (wrote_next _ _ _ _ v W1)) as W3.
  destruct HT as [-> | ->]; cbn [run_ops].
  - rewrite (wrote_out _ _ _ _ W2), (wrote_out _ _ _ _ W3). reflexivity.
  - destruct W2 as [v2 ->]. destruct W3 as [v3 ->].
    assert (forall w, e_out (fst (step (set_ss_next (after_log e1 (log1 ++ log2)) n w) c)) =
                      e_out (fst (step (after_log e1 (log1 ++ log2)) c))) as HX.
    { intros w. apply close_out; [|exact (d_sync _ _ _ D eq_refl)].
      destruct HO as [E|x]; [left|right; reflexivity]. split; [reflexivity|].
      change (e_streaming (after_log e1 (log1 ++ log2))) with (e_streaming e1). rewrite EF. exact E. }
    rewrite !HX. reflexivity.
Qed.
