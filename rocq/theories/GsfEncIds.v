(** Local ids: automatic ones never clash in orderly histories. *)
From Verif Require Import Base BaseProofs Utf8 Utf8Proofs GsfPrim GsfPrimProofs GsfBlock GsfBlockProofs
  GsfDecode CogEnums GsfEncode GsfSpec GsfEncodeProofs GsfEncState GsfEncSpec GsfEncStateProofs GsfEncSession GsfEncInv GsfEncFile.
From Coq Require Import ZifyBool ZifyNat.
Ltac Zify.zify_post_hook ::= Z.div_mod_to_equations.

Definition counter (e : enc) : Z := match current e with Some n => ss_next (get_ss e n) | None => e_next e end.

Record fresh (e : enc) : Prop := mkFresh {
  fr_sess : sess_inv e;
  fr_one : e_sync e = None \/ e_async e = None;
  fr_below : Forall (fun l => l < counter e) (locals e) }.

(** Same locals, same counters. *)
Definition keeps (e e' : enc) : Prop :=
  frame e e' /\ locals e' = locals e /\ e_next e' = e_next e /\ (forall m, ss_next (get_ss e' m) = ss_next (get_ss e m)).

Lemma keeps_refl e : keeps e e. Proof. split; [apply frame_refl|auto]. Qed.
Lemma keeps_trans a b c : keeps a b -> keeps b c -> keeps a c.
Proof.
  intros (A1 & A2 & A3 & A4) (B1 & B2 & B3 & B4). split; [eapply frame_trans; eassumption|]. split; [congruence|]. split; [congruence|].
  intros m. rewrite B4. apply A4.
Qed.

Lemma keeps_counter e e' : keeps e e' -> counter e' = counter e.
Proof.
  intros ((_ & F2 & F3 & _) & _ & E & H). unfold counter, current. rewrite F2, F3.
  destruct (e_sync e); [apply H|]. destruct (e_async e); [apply H|exact E].
Qed.

Lemma keeps_fresh e e' : keeps e e' -> fresh e -> fresh e'.
Proof.
  intros HK [H1 H2 H3]. pose proof (keeps_counter _ _ HK) as HC. destruct HK as (HF & HL & _). constructor.
  - eapply frame_sess; eassumption.
  - destruct HF as (_ & -> & -> & _). exact H2.
  - rewrite HL, HC. exact H3.
Qed.

Lemma next_active e n b m : ss_next (get_ss (set_active e n b) m) = ss_next (get_ss e m).
Proof.
  unfold get_ss, set_active, set_sess. cbn [e_sess]. rewrite nth_upd_nth.
  destruct (m =? n)%nat eqn:E; [|reflexivity]. apply Nat.eqb_eq in E as ->. destruct (_ <? _)%nat; reflexivity.
Qed.

Lemma keeps_active e n b : keeps e (set_active e n b).
Proof. split; [apply frame_active|]. split; [reflexivity|]. split; [reflexivity|]. intros m. apply next_active. Qed.

Lemma upd_seg_locals l f segs : (forall s, st_local (f s) = st_local s) -> map st_local (upd_seg l f segs) = map st_local segs.
Proof. intros H. unfold upd_seg. rewrite map_map. apply map_ext. intros s. destruct (_ =? _); [apply H|reflexivity]. Qed.

Lemma keeps_segs e segs : map st_local segs = locals e -> keeps e (set_segs e segs).
Proof. intros H. split; [repeat split|]. split; [exact H|]. split; reflexivity. Qed.

Lemma keeps_out e o : keeps e (set_out e o).
Proof. split; [repeat split|]. repeat split. Qed.

Lemma write_grains_keeps local gs : forall e, keeps e (fst (write_grains e local gs)).
Proof.
  induction gs as [|g gs IH]; intros e; cbn [write_grains]; [apply keeps_refl|].
  destruct (enc_grain (e_major e) local g); [|apply keeps_refl]. eapply keeps_trans; [|apply IH].
  eapply keeps_trans; [|apply keeps_out]. apply keeps_segs, upd_seg_locals. reflexivity.
Qed.

Lemma seg_add_grains_keeps e local gs : keeps e (fst (seg_add_grains e local gs)).
Proof.
  unfold seg_add_grains. destruct (find_seg _ _); [|apply keeps_refl].
  destruct (parent_active _ _); [apply write_grains_keeps|]. apply keeps_segs, upd_seg_locals. reflexivity.
Qed.

Lemma seg_change_keeps e local f : (forall s, st_local (f s) = st_local s) -> keeps e (fst (seg_change e local f)).
Proof.
  intros H. unfold seg_change. destruct (find_seg _ _) as [s|]; [destruct (st_active s)|]; try apply keeps_refl.
  apply keeps_segs, upd_seg_locals, H.
Qed.

Lemma enc_grain_list_local major gs : forall s, st_local (fst (enc_grain_list major s gs)) = st_local s.
Proof.
  induction gs as [|g gs IH]; intros s; cbn [enc_grain_list]; [reflexivity|].
  destruct (enc_grain _ _ _); [|reflexivity].
  specialize (IH (bump_wc s)). destruct (enc_grain_list major (bump_wc s) gs) as [s' [b|x]]; exact IH.
Qed.

Lemma enc_all_grains_locals major segs : map st_local (fst (enc_all_grains major segs)) = map st_local segs.
Proof.
  induction segs as [|s t IH]; cbn [enc_all_grains]; [reflexivity|].
  pose proof (enc_grain_list_local major (st_grains s) s) as H.
  destruct (enc_grain_list major s (st_grains s)) as [s' [b|x]]; cbn [fst] in *.
  - destruct (enc_all_grains major t) as [t' [bs|x]]; cbn [fst map] in *; rewrite IH; unfold st_local in *; cbn in *; rewrite H; reflexivity.
  - cbn [map]. now rewrite H.
Qed.

Lemma start_dump_keeps e n aao : keeps e (fst (start_dump e n aao)).
Proof.
  rewrite start_dump_eq. cbv zeta.
  pose proof (enc_all_grains_locals (e_major e) (placed_segs e aao)) as HL.
  destruct (enc_all_grains (e_major e) (placed_segs e aao)) as [s [b|x]]; cbn [fst] in *;
    (eapply keeps_trans; [apply (keeps_active e n true)|]; eapply keeps_trans; [|apply keeps_out]; apply keeps_segs;
     rewrite HL; exact (placed_segs_map st_local e aao (fun _ _ => eq_refl))).
Qed.

Lemma end_dump_keeps e n : keeps e (end_dump e n).
Proof.
  unfold end_dump. destruct (ss_active _); [|apply keeps_out]. eapply keeps_trans; [|apply keeps_active]. apply keeps_out.
Qed.

(** ---------------------------------------------------------------- adding segments *)

Lemma bump_bound next l x : x < next -> x < bump_next next l.
Proof. unfold bump_next. destruct (l >=? next) eqn:E; lia. Qed.
Lemma bump_above next l : l < bump_next next l.
Proof. unfold bump_next. destruct (l >=? next) eqn:E; lia. Qed.


Lemma get_ss_next_same e n v : (n < length (e_sess e))%nat -> ss_next (get_ss (set_ss_next e n v) n) = v.
Proof.
  intros H. unfold get_ss, set_ss_next, set_sess. cbn [e_sess]. rewrite nth_upd_nth, Nat.eqb_refl.
  replace (n <? length (e_sess e))%nat with true by lia. reflexivity.
Qed.

Lemma enc_add_segment_fresh e id local tags : e_async e = None -> fresh e -> fresh (fst (enc_add_segment e id local tags)).
Proof.
  intros HA HF. pose proof HF as [H1 H2 H3]. unfold enc_add_segment. destruct (e_sync e) eqn:ES; [exact HF|].
  unfold counter, current in H3. rewrite ES, HA in H3.
  set (l := pick_local (e_next e) local).
  destruct (find_seg l _) as [s|]; cbn [fst]; constructor; try (intros n [X|X]; cbn in X; congruence);
    try (left; cbn; exact ES); unfold counter, current, locals; cbn [set_segs set_next e_sync e_async e_next e_segs];
    rewrite ES, HA.
  - eapply Forall_impl; [|exact H3]. intros x Hx. apply bump_bound, Hx.
  - rewrite map_app. apply Forall_app. split; [eapply Forall_impl; [|exact H3]; intros x Hx; apply bump_bound, Hx|].
    repeat constructor. apply bump_above.
Qed.

Lemma open_add_segment_fresh e n id local tags : current e = Some n -> fresh e -> fresh (fst (open_add_segment e n id local tags)).
Proof.
  intros HC HF. pose proof HF as [H1 H2 H3]. unfold counter in H3. rewrite HC in H3.
  assert (n < length (e_sess e))%nat as Hn.
  { apply H1. unfold current in HC. destruct (e_sync e); [left; exact HC|right; exact HC]. }
  unfold open_add_segment. set (l := pick_local (ss_next (get_ss e n)) local). set (v := bump_next (ss_next (get_ss e n)) l).
  assert (fresh (set_ss_next e n v)) as HB.
  { constructor.
    - eapply frame_sess; [apply frame_next|exact H1].
    - exact H2.
    - unfold counter. change (current (set_ss_next e n v)) with (current e). rewrite HC, get_ss_next_same by exact Hn.
      eapply Forall_impl; [|exact H3]. intros x Hx. apply bump_bound, Hx. }
  destruct (find_seg l _) as [s|]; cbn [fst]; [exact HB|]. destruct (ss_active _); cbn [fst]; [exact HB|].
  destruct HB as [B1 B2 B3]. constructor; [exact B1|exact B2|]. unfold locals. cbn [set_segs e_segs]. rewrite map_app. apply Forall_app.
  split; [exact B3|]. repeat constructor. unfold counter. change (current (set_segs ?a ?b)) with (current e). rewrite HC.
  change (get_ss (set_segs ?a ?b) n) with (get_ss a n). rewrite get_ss_next_same by exact Hn. apply bump_above.
Qed.

Lemma open_add_grains_fresh e n gs sid local fr : current e = Some n -> fresh e -> fresh (fst (open_add_grains e n gs sid local fr)).
Proof.
  intros HC HF. unfold open_add_grains.
  assert (fresh (fst (open_get_segment e n sid local fr))) as HG.
  { unfold open_get_segment.
    assert (forall l, fresh (fst (if ss_active (get_ss e n) then (e, Err EEncode)
            else open_add_segment e n match sid with Some i => i | None => fr end l []))) as HX.
    { intros l. destruct (ss_active _); [exact HF|apply open_add_segment_fresh; assumption]. }
    destruct (find_local (e_segs e) sid local) as [l|]; [destruct (find_seg l (e_segs e))|]; try apply HX. exact HF. }
  destruct (open_get_segment e n sid local fr) as [e1 [l|x]]; cbn [fst] in *; [|exact HG].
  eapply keeps_fresh; [|exact HG]. destruct (ss_active _); [apply write_grains_keeps|apply seg_add_grains_keeps].
Qed.

Lemma enc_add_grains_fresh e gs sid local fr : e_async e = None -> fresh e -> fresh (fst (enc_add_grains e gs sid local fr)).
Proof.
  intros HA HF. unfold enc_add_grains. destruct (e_sync e) as [n|] eqn:ES.
  - apply open_add_grains_fresh; [|exact HF]. unfold current. now rewrite ES.
  - assert (forall l, fresh (fst (match enc_add_segment e match sid with Some i => i | None => fr end l [] with
             | (e1, Ok l) => seg_add_grains e1 l gs | (e1, Err x) => (e1, Err x) end))) as HC.
    { intros l. pose proof (enc_add_segment_fresh e match sid with Some i => i | None => fr end l [] HA HF) as HI.
      destruct (enc_add_segment e _ l []) as [e1 [x|x]]; cbn [fst] in *; [|exact HI].
      eapply keeps_fresh; [apply seg_add_grains_keeps|exact HI]. }
    destruct (find_local (e_segs e) sid local) as [l|]; [destruct (find_seg l (e_segs e))|]; try apply HC.
    eapply keeps_fresh; [apply seg_add_grains_keeps|exact HF].
Qed.

Lemma open_session_fresh e async : current e = None -> fresh e -> fresh (fst (open_session e async)).
Proof.
  intros HC [H1 H2 H3]. assert (e_sync e = None /\ e_async e = None) as [ES EA].
  { unfold current in HC. destruct (e_sync e); [discriminate|auto]. }
  constructor.
  - apply open_session_sess, H1.
  - unfold open_session. destruct async; cbn; auto.
  - unfold counter in H3. rewrite HC in H3.
    replace (counter (fst (open_session e async))) with (e_next e).
    { destruct async; exact H3. }
    unfold counter, current, open_session. destruct async; cbn [fst set_async set_sync set_sess e_sync e_async]; rewrite ?ES;
      unfold get_ss; cbn [set_async set_sync set_sess e_sess]; rewrite nth_middle; reflexivity.
Qed.

Lemma close_session_fresh e n (async : bool) : (if async then e_async e else e_sync e) = Some n -> fresh e -> fresh (close_session e n async).
Proof.
  intros HN HF. pose proof (keeps_fresh _ _ (end_dump_keeps e n) HF) as HE.
  pose proof (end_dump_keeps e n) as ((_ & F2 & F3 & _) & _ & _ & _).
  unfold close_session. set (e1 := end_dump e n) in *. destruct HE as [H1 H2 H3].
  assert (counter e1 = ss_next (get_ss e1 n)) as EC.
  { unfold counter, current. destruct async.
    - destruct (fr_one _ HF) as [X|X]; [|congruence]. rewrite F2, X, F3, HN. reflexivity.
    - rewrite F2, HN. reflexivity. }
  destruct async; constructor; cbn [set_async set_sync set_next e_sync e_async e_sess]; auto.
  - intros m [X|X]; cbn in X; [|discriminate]. apply H1. auto.
  - unfold counter, current, locals in *. cbn [set_async set_sync set_next e_sync e_async e_next e_segs].
    destruct (fr_one _ HF) as [X|X]; [|congruence]. rewrite F2, X. rewrite EC in H3. exact H3.
  - intros m [X|X]; cbn in X; [discriminate|]. apply H1. auto.
  - unfold counter, current, locals in *. cbn [set_async set_sync set_next e_sync e_async e_next e_segs].
    destruct (fr_one _ HF) as [X|X]; [congruence|]. rewrite F3, X. rewrite EC in H3. exact H3.
Qed.

Lemma leave_fresh e async : fresh e -> fresh (fst (leave e async)).
Proof.
  intros HF. unfold leave. destruct (if async then e_async e else e_sync e) as [n|] eqn:E; [|exact HF].
  destruct (e_streaming e); [apply close_session_fresh; assumption|].
  pose proof (start_dump_keeps e n true) as HK. destruct (start_dump e n true) as [e1 [u|x]]; cbn [fst] in *;
    [|eapply keeps_fresh; eassumption].
  apply close_session_fresh; [|eapply keeps_fresh; eassumption]. destruct HK as ((_ & -> & -> & _) & _). exact E.
Qed.

Lemma step_fresh e o : orderly_call e o -> fresh e -> fresh (fst (step e o)).
Proof.
  intros HO HF. destruct o; cbn [step orderly_call] in *.
  - destruct (e_sync e) eqn:E; [exact HF|]. eapply keeps_fresh; [|exact HF]. split; [repeat split|repeat split].
  - unfold drop. cbn [fst]. apply enc_add_segment_fresh; assumption.
  - apply enc_add_grains_fresh; assumption.
  - destruct (ss_active _); [exact HF|]. eapply keeps_fresh; [|exact HF]. split; [repeat split|repeat split].
  - unfold drop. cbn [fst]. apply open_add_segment_fresh; assumption.
  - apply open_add_grains_fresh; assumption.
  - eapply keeps_fresh; [apply seg_change_keeps|exact HF]. reflexivity.
  - eapply keeps_fresh; [apply seg_change_keeps|exact HF]. reflexivity.
  - eapply keeps_fresh; [apply seg_add_grains_keeps|exact HF].
  - unfold enter. pose proof (open_session_fresh e false HO HF) as HX. destruct (open_session e false) as [e1 n]; cbn [fst] in HX.
    destruct (e_streaming e); [eapply keeps_fresh; [apply start_dump_keeps|]|]; exact HX.
  - apply leave_fresh, HF.
  - unfold enter. pose proof (open_session_fresh e true HO HF) as HX. destruct (open_session e true) as [e1 n]; cbn [fst] in HX.
    destruct (e_streaming e); [eapply keeps_fresh; [apply start_dump_keeps|]|]; exact HX.
  - apply leave_fresh, HF.
  - pose proof (open_session_fresh e false HO HF) as HX. destruct (open_session e false) as [e1 n]; cbn [fst] in HX.
    eapply keeps_fresh; [apply start_dump_keeps|]; exact HX.
  - destruct (e_sync e) as [n|] eqn:E; [|exact HF]. cbn [fst]. apply close_session_fresh; assumption.
Qed.

Lemma orderly_fresh e : orderly_state e -> fresh e.
Proof.
  intros (out & major & minor & id & created & streaming & ops & HO & ->).
  assert (fresh (new_encoder out major minor id created streaming)) as HF.
  { constructor; [intros n [X|X]; discriminate|left; reflexivity|constructor]. }
  revert HF HO. generalize (new_encoder out major minor id created streaming). clear.
  induction ops as [|o ops IH]; intros e HF HO; [exact HF|]. cbn [run_ops]. inversion HO; subst.
  apply IH; [apply step_fresh|]; assumption.
Qed.

Lemma find_seg_fresh e : fresh e -> find_seg (counter e) (e_segs e) = None.
Proof.
  intros [_ _ H]. apply find_seg_none. intros HI. rewrite Forall_forall in H. specialize (H _ HI). lia.
Qed.

(** ---------------------------------------------------------------- the properties *)

Theorem locals_unique e : reachable e -> NoDup (locals e).
Proof. intros HR. apply reachable_inv in HR as [HR _]. apply (si_nodup _ _ HR). Qed.

(** Automatic ids: through the encoder when no session is open, through the open session otherwise. *)
Theorem auto_segment e id tags : orderly_state e -> current e = None ->
  exists l, ~ In l (locals e) /\ snd (step e (EAddSegment id None tags)) = done /\
    e_segs (fst (step e (EAddSegment id None tags))) = e_segs e ++ [new_seg id l tags ParEncoder].
Proof.
  intros HO HC. apply orderly_fresh in HO. pose proof (find_seg_fresh e HO) as HN. exists (counter e). split.
  - apply find_seg_none, HN.
  - unfold counter in *. rewrite HC in *. unfold current in HC. cbn [step]. unfold drop, enc_add_segment. destruct (e_sync e); [discriminate|].
    cbn [pick_local set_next e_segs]. rewrite HN. split; reflexivity.
Qed.

Theorem auto_segment_open e n id tags : orderly_state e -> current e = Some n -> ss_active (get_ss e n) = false ->
  exists l, ~ In l (locals e) /\ snd (step e (OAddSegment n id None tags)) = done /\
    e_segs (fst (step e (OAddSegment n id None tags))) = e_segs e ++ [new_seg id l tags (ParOpen n)].
Proof.
  intros HO HC HA. apply orderly_fresh in HO. pose proof (find_seg_fresh e HO) as HN. exists (counter e). split.
  - apply find_seg_none, HN.
  - unfold counter in *. rewrite HC in *. cbn [step]. unfold drop, open_add_segment. cbn [pick_local set_ss_next set_sess e_segs].
    rewrite HN, HA. split; reflexivity.
Qed.

(** During an active dump the automatic addition is refused because of the dump, never as a duplicate. *)
Theorem auto_segment_active e n id tags : orderly_state e -> current e = Some n -> ss_active (get_ss e n) = true ->
  snd (step e (OAddSegment n id None tags)) = Err EActive.
Proof.
  intros HO HC HA. apply orderly_fresh in HO. pose proof (find_seg_fresh e HO) as HN.
  unfold counter in *. rewrite HC in *. cbn [step]. unfold drop, open_add_segment. cbn [pick_local set_ss_next set_sess e_segs].
  rewrite HN, HA. reflexivity.
Qed.

(** Grains for a segment that does not exist create one; this never fails either. *)
Theorem auto_segment_grains e gs sid fr : orderly_state e -> idle e -> e_async e = None ->
  candidates (keys_of e) sid None = [] ->
  exists l, ~ In l (locals e) /\ snd (step e (EAddGrains gs sid None fr)) = done /\
    locals (fst (step e (EAddGrains gs sid None fr))) = locals e ++ [l].
Proof.
  intros HO HI HA HK. apply orderly_fresh in HO. pose proof (find_seg_fresh e HO) as HN. exists (counter e). split.
  { apply find_seg_none, HN. }
  assert (find_local (e_segs e) sid None = None) as EF.
  { destruct (find_local (e_segs e) sid None) as [l|] eqn:E; [|reflexivity]. exfalso. cbn [find_local] in E.
    apply zmin_lowest in E as [HIn _]. unfold keys_of in HK. fold (keys (e_segs e)) in HK. rewrite candidates_id in HK.
    rewrite HK in HIn. contradiction. }
  assert (forall e1 p, idle e1 -> e_segs e1 = e_segs e ++ [new_seg match sid with Some i => i | None => fr end (counter e) [] p] ->
    snd (seg_add_grains e1 (counter e) gs) = done /\ locals (fst (seg_add_grains e1 (counter e) gs)) = locals e ++ [counter e]) as HS.
  { intros e1 p HI1 E1. rewrite seg_add_grains_idle; [|exact HI1|rewrite E1, map_app; apply in_or_app; right; left; reflexivity].
    cbn [fst snd]. split; [reflexivity|]. unfold locals. cbn [set_segs e_segs]. rewrite map_map.
    change (fun x => st_local (push_log (map (pair (counter e)) gs) x)) with st_local. rewrite E1, map_app. reflexivity. }
  cbn [step]. unfold enc_add_grains. destruct (e_sync e) as [n|] eqn:ES.
  - unfold open_add_grains, open_get_segment. rewrite EF, idle_ss by exact HI. unfold open_add_segment. cbn [pick_local].
    assert (counter e = ss_next (get_ss e n)) as EC by (unfold counter, current; now rewrite ES). rewrite <- EC.
    cbn [set_ss_next set_sess e_segs]. rewrite HN, idle_ss by exact HI.
    assert (idle (set_segs (set_ss_next e n (bump_next (counter e) (counter e)))
       (e_segs e ++ [new_seg match sid with Some i => i | None => fr end (counter e) [] (ParOpen n)]))) as HI1.
    { unfold idle in *. cbn [set_segs set_ss_next set_sess e_sess]. clear - HI. revert n. induction HI as [|x l Hx Hl IH]; intros [|n]; cbn [upd_nth]; constructor; auto. }
    cbv beta iota. rewrite (idle_ss _ n HI1). apply (HS _ (ParOpen n) HI1 eq_refl).
  - rewrite EF. unfold enc_add_segment. rewrite ES. cbn [pick_local].
    assert (counter e = e_next e) as EC by (unfold counter, current; now rewrite ES, HA). rewrite <- EC.
    cbn [set_next e_segs]. rewrite HN. apply (HS _ ParEncoder); [exact HI|reflexivity].
Qed.

(** Explicit ids: refused exactly when in use (any state in which segments can be added at all). *)
Theorem explicit_segment e id l tags : e_sync e = None ->
  (snd (step e (EAddSegment id (Some l) tags)) = Err EEncode <-> In l (locals e)) /\
  (~ In l (locals e) -> snd (step e (EAddSegment id (Some l) tags)) = done /\
     e_segs (fst (step e (EAddSegment id (Some l) tags))) = e_segs e ++ [new_seg id l tags ParEncoder]) /\
  (In l (locals e) -> e_segs (fst (step e (EAddSegment id (Some l) tags))) = e_segs e).
Proof.
  intros ES. cbn [step]. unfold drop, enc_add_segment. rewrite ES. cbn [pick_local set_next e_segs].
  destruct (find_seg l (e_segs e)) as [s|] eqn:E; cbn [fst snd].
  - apply find_seg_some in E as [HI <-]. pose proof (in_map st_local _ _ HI) as HX. unfold locals. cbn [e_segs]. tauto.
  - apply find_seg_none in E. unfold locals. split; [split; [discriminate|contradiction]|]. split; [auto|contradiction].
Qed.

Theorem explicit_segment_open e n id l tags : ss_active (get_ss e n) = false ->
  (snd (step e (OAddSegment n id (Some l) tags)) = Err EEncode <-> In l (locals e)) /\
  (~ In l (locals e) -> snd (step e (OAddSegment n id (Some l) tags)) = done /\
     e_segs (fst (step e (OAddSegment n id (Some l) tags))) = e_segs e ++ [new_seg id l tags (ParOpen n)]) /\
  (In l (locals e) -> e_segs (fst (step e (OAddSegment n id (Some l) tags))) = e_segs e).
Proof.
  intros ES. cbn [step]. unfold drop, open_add_segment. cbn [pick_local set_ss_next set_sess e_segs].
  destruct (find_seg l (e_segs e)) as [s|] eqn:E; rewrite ?ES; cbn [fst snd].
  - apply find_seg_some in E as [HI <-]. pose proof (in_map st_local _ _ HI) as HX. unfold locals. cbn [e_segs]. tauto.
  - apply find_seg_none in E. unfold locals. split; [split; [discriminate|contradiction]|]. split; [auto|contradiction].
Qed.
