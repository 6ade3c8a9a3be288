(** Complete sessions: the file left by a dump at once and by streaming. *)
From Verif Require Import Base BaseProofs Utf8 Utf8Proofs GsfPrim GsfPrimProofs GsfBlock GsfBlockProofs
  GsfDecode CogEnums GsfEncode GsfSpec GsfEncodeProofs GsfEncState GsfEncSpec GsfEncStateProofs GsfEncSession GsfEncInv.
From Coq Require Import ZifyBool ZifyNat.
Ltac Zify.zify_post_hook ::= Z.div_mod_to_equations.

Lemma get_ss_active e n b m : (n < length (e_sess e))%nat ->
  ss_active (get_ss (set_active e n b) m) = (if (m =? n)%nat then b else ss_active (get_ss e m)) /\
  ss_async (get_ss (set_active e n b) m) = ss_async (get_ss e m) /\
  ss_next (get_ss (set_active e n b) m) = ss_next (get_ss e m).
Proof.
  intros H. unfold get_ss, set_active, set_sess. cbn [e_sess]. rewrite nth_upd_nth.
  destruct (m =? n)%nat eqn:E; [|auto]. apply Nat.eqb_eq in E as ->.
  replace (n <? length (e_sess e))%nat with true by lia. auto.
Qed.

Lemma segs_bytes_len c c' segs : zlen (segs_bytes (with_counts c segs)) = zlen (segs_bytes (with_counts c' segs)).
Proof.
  unfold segs_bytes, with_counts. induction segs as [|s t IH]; [reflexivity|]. cbn [map flat_map fst snd].
  rewrite !zlen_app, IH. f_equal. apply enc_segm_len.
Qed.

Lemma file_so_far_len e c c' segs tags gs :
  zlen (file_so_far e (with_counts c segs) tags gs) = zlen (file_so_far e (with_counts c' segs) tags gs).
Proof. rewrite !file_so_far_split, !map_fst_counts, !zlen_app, (segs_bytes_len c c'). reflexivity. Qed.

Lemma end_dump_out e e1 n c tags gs : o_seek (e_out e1) = o_seek (e_out e) -> at_end (e_out e1) ->
  o_data (e_out e1) = prior (e_out e) ++ file_so_far e (with_counts c (e_segs e1)) tags gs ->
  (o_seek (e_out e) = true -> placed (segs_start e) (e_segs e1)) ->
  ss_active (get_ss e1 n) = true ->
  o_data (e_out (end_dump e1 n)) =
    prior (e_out e) ++ complete_file e (with_counts (fun s => if o_seek (e_out e) then recount c s else c s) (e_segs e1)) tags gs /\
  at_end (e_out (end_dump e1 n)) /\ o_seek (e_out (end_dump e1 n)) = o_seek (e_out e) /\
  e_segs (end_dump e1 n) = e_segs e1.
Proof.
  intros HS HA HD HP HN. unfold end_dump. rewrite HN.
  assert (patch_counts (e_segs e1) (e_out e1) =
          mkOut (prior (e_out e) ++ file_so_far e (with_counts (fun s => if o_seek (e_out e) then recount c s else c s) (e_segs e1)) tags gs)
                (o_pos (e_out e1)) (o_seek (e_out e))) as EP.
  { unfold prior in *. destruct (o_seek (e_out e)) eqn:E.
    - cbn [app] in HD |- *. apply (patch_file e (e_segs e1) c tags gs (e_out e1)); auto.
    - rewrite patch_counts_unseekable by exact HS. destruct (e_out e1) as [d p s]. cbn [o_data o_pos o_seek] in *.
      subst. reflexivity. }
  rewrite EP. cbn [set_active set_sess set_out e_out e_segs].
  assert (at_end (mkOut (prior (e_out e) ++ file_so_far e (with_counts (fun s => if o_seek (e_out e) then recount c s else c s) (e_segs e1)) tags gs)
                (o_pos (e_out e1)) (o_seek (e_out e)))) as HE.
  { unfold at_end in *. cbn [o_seek o_pos o_data]. intros E. rewrite HS in HA. rewrite (HA E), HD, !zlen_app. f_equal. apply file_so_far_len. }
  rewrite o_write_append by exact HE.
  split; [|split; [apply at_end_append; exact HE|split; reflexivity]].
  unfold o_append. cbn [o_data]. unfold complete_file. rewrite <- app_assoc. reflexivity.
Qed.

(** ---------------------------------------------------------------- all at once *)

Lemma dump_once e n : inv e -> (n < length (e_sess e))%nat -> Forall (encodable (e_major e)) (waiting (e_segs e)) ->
  exists e1, start_dump e n true = (e1, done) /\
    o_data (e_out (end_dump e1 n)) =
      prior (e_out e) ++ complete_file e (with_counts total (e_segs e)) (e_tags e) (waiting (e_segs e)) /\
    at_end (e_out (end_dump e1 n)) /\ o_seek (e_out (end_dump e1 n)) = o_seek (e_out e) /\
    e_segs (end_dump e1 n) = map flush (map activate (e_segs e)).
Proof.
  intros HI Hn HW. exists (started e n true). split; [apply start_dump_ok; exact HW|].
  assert (placed_segs e true = map activate (e_segs e)) as EP by reflexivity.
  destruct (end_dump_out e (started e n true) n st_wc (e_tags e) (waiting (e_segs e))) as (H1 & H2 & H3 & H4).
  - unfold started, o_append, reset_out. cbn [set_out e_out o_seek]. destruct (o_seek (e_out e)) eqn:E; [reflexivity|exact E].
  - apply at_end_append, at_end_reset.
  - unfold started. cbn [set_out e_out set_segs e_segs]. unfold o_append. cbn [o_data].
    assert (o_data (reset_out (e_out e)) = prior (e_out e)) as -> by (unfold reset_out, prior; destruct (o_seek (e_out e)); reflexivity).
    rewrite EP. rewrite (with_counts_flush _ total) by reflexivity.
    rewrite with_counts_activate by reflexivity. do 2 f_equal. unfold with_counts. apply map_ext. intros s.
    unfold header_count, total. f_equal. lia.
  - intros _. unfold started. cbn [set_out e_out set_segs e_segs]. rewrite EP. apply placed_flush, placed_activate.
    exact (si_placed _ _ HI).
  - exact (proj1 (get_ss_active e n true n Hn) ) || (unfold started; pose proof (proj1 (get_ss_active e n true n Hn)) as H;
      rewrite Nat.eqb_refl in H; exact H).
  - split; [|split; [exact H2|split; [exact H3|]]].
    + rewrite H1. f_equal. f_equal. unfold started. cbn [set_out set_segs e_segs]. rewrite EP.
      rewrite (with_counts_flush _ total).
      2:{ intros s. unfold recount. cbn [flush st_cpos st_wc]. fold (total s). destruct (o_seek (e_out e)); [destruct (st_cpos s =? -1)|]; reflexivity. }
      rewrite with_counts_activate by reflexivity. reflexivity.
    + rewrite H4. unfold started. cbn [set_out set_segs e_segs]. rewrite EP. reflexivity.
Qed.

(** ---------------------------------------------------------------- what calls leave unchanged *)

Definition frame (e e' : enc) : Prop :=
  length (e_sess e') = length (e_sess e) /\ e_sync e' = e_sync e /\ e_async e' = e_async e /\
  e_streaming e' = e_streaming e.

Lemma frame_refl e : frame e e. Proof. repeat split. Qed.
Lemma frame_trans a b c : frame a b -> frame b c -> frame a c.
Proof. unfold frame. intros (A1 & A2 & A3 & A4) (B1 & B2 & B3 & B4). repeat split; congruence. Qed.

Lemma upd_nth_length {A} (f : A -> A) l : forall n, length (upd_nth n f l) = length l.
Proof. induction l as [|x l IH]; intros [|n]; cbn [upd_nth length]; try reflexivity. now rewrite IH. Qed.

Lemma frame_next e n v : frame e (set_ss_next e n v).
Proof. unfold frame, set_ss_next, set_sess. cbn. rewrite upd_nth_length. repeat split. Qed.

Lemma frame_active e n v : frame e (set_active e n v).
Proof. unfold frame, set_active, set_sess. cbn. rewrite upd_nth_length. repeat split. Qed.

Lemma write_grains_frame local gs : forall e, frame e (fst (write_grains e local gs)).
Proof.
  induction gs as [|g gs IH]; intros e; cbn [write_grains]; [apply frame_refl|].
  destruct (enc_grain (e_major e) local g); [|apply frame_refl]. eapply frame_trans; [|apply IH]. repeat split.
Qed.

Lemma seg_add_grains_frame e local gs : frame e (fst (seg_add_grains e local gs)).
Proof.
  unfold seg_add_grains. destruct (find_seg _ _); [|apply frame_refl].
  destruct (parent_active _ _); [apply write_grains_frame|repeat split].
Qed.

Lemma enc_add_segment_frame e id local tags : frame e (fst (enc_add_segment e id local tags)).
Proof.
  unfold enc_add_segment. destruct (e_sync e) eqn:E; [apply frame_refl|]. destruct (find_seg _ _);
    unfold frame; cbn; rewrite ?E; auto.
Qed.

Lemma open_add_segment_frame e n id local tags : frame e (fst (open_add_segment e n id local tags)).
Proof.
  unfold open_add_segment. destruct (find_seg _ _); [apply frame_next|].
  destruct (ss_active _); [apply frame_next|]. cbn [fst]. eapply frame_trans; [apply frame_next|]. repeat split.
Qed.

Lemma open_add_grains_frame e n gs sid local fresh : frame e (fst (open_add_grains e n gs sid local fresh)).
Proof.
  unfold open_add_grains.
  assert (frame e (fst (open_get_segment e n sid local fresh))) as HG.
  { unfold open_get_segment.
    assert (forall l, frame e (fst (if ss_active (get_ss e n) then (e, Err EEncode)
            else open_add_segment e n match sid with Some i => i | None => fresh end l []))) as HC.
    { intros l. destruct (ss_active _); [apply frame_refl|apply open_add_segment_frame]. }
    destruct (find_local (e_segs e) sid local) as [l|]; [destruct (find_seg l (e_segs e))|]; try apply HC. apply frame_refl. }
  destruct (open_get_segment e n sid local fresh) as [e1 [l|x]]; cbn [fst] in *; [|exact HG].
  eapply frame_trans; [exact HG|]. destruct (ss_active _); [apply write_grains_frame|apply seg_add_grains_frame].
Qed.

Lemma enc_add_grains_frame e gs sid local fresh : frame e (fst (enc_add_grains e gs sid local fresh)).
Proof.
  unfold enc_add_grains. destruct (e_sync e) eqn:ES; [apply open_add_grains_frame|].
  assert (forall l, frame e (fst (match enc_add_segment e match sid with Some i => i | None => fresh end l [] with
             | (e1, Ok l) => seg_add_grains e1 l gs | (e1, Err x) => (e1, Err x) end))) as HC.
  { intros l. pose proof (enc_add_segment_frame e match sid with Some i => i | None => fresh end l []) as HI.
    destruct (enc_add_segment e _ l []) as [e1 [x|x]]; cbn [fst] in *; [|exact HI].
    eapply frame_trans; [exact HI|apply seg_add_grains_frame]. }
  destruct (find_local (e_segs e) sid local) as [l|]; [destruct (find_seg l (e_segs e))|]; try apply HC.
  apply seg_add_grains_frame.
Qed.

Lemma seg_change_frame e local f : frame e (fst (seg_change e local f)).
Proof. unfold seg_change. destruct (find_seg _ _) as [s|]; [destruct (st_active s)|]; repeat split. Qed.

Lemma start_dump_frame e n aao : frame e (fst (start_dump e n aao)).
Proof.
  rewrite start_dump_eq. cbv zeta. destruct (enc_all_grains _ _) as [s [b|x]]; cbn [fst];
    (eapply frame_trans; [apply (frame_active e n true)|repeat split]).
Qed.

Lemma end_dump_frame e n : frame e (end_dump e n).
Proof.
  unfold end_dump. destruct (ss_active _); [|repeat split].
  eapply frame_trans; [|apply frame_active]. repeat split.
Qed.

(** Open sessions have been created. *)
Definition sess_inv (e : enc) : Prop :=
  forall n, e_sync e = Some n \/ e_async e = Some n -> (n < length (e_sess e))%nat.

Lemma frame_sess e e' : frame e e' -> sess_inv e -> sess_inv e'.
Proof. unfold frame, sess_inv. intros (F1 & F2 & F3 & F4) H n. rewrite F1, F2, F3. apply H. Qed.

Lemma open_session_sess e async : sess_inv e -> sess_inv (fst (open_session e async)).
Proof.
  unfold sess_inv, open_session. intros H n. destruct async; cbn [fst set_async set_sync set_sess e_sess e_sync e_async];
    rewrite app_length; cbn [length]; intros [E|E]; try (injection E as <-; lia); specialize (H n); intuition lia.
Qed.

Lemma close_session_sess e n async : sess_inv e -> sess_inv (close_session e n async).
Proof.
  intros H. unfold close_session. pose proof (frame_sess _ _ (end_dump_frame e n) H) as HE.
  unfold sess_inv in *. destruct async; cbn [set_async set_sync set_next e_sess e_sync e_async]; intros m [E|E];
    try discriminate; apply HE; auto.
Qed.

Lemma step_sess e o : sess_inv e -> sess_inv (fst (step e o)).
Proof.
  intros H. destruct o; cbn [step].
  - destruct (e_sync e) eqn:E; [exact H|]. eapply frame_sess; [|exact H]. repeat split.
  - eapply frame_sess; [apply enc_add_segment_frame|exact H].
  - eapply frame_sess; [apply enc_add_grains_frame|exact H].
  - destruct (ss_active _); [exact H|]. eapply frame_sess; [|exact H]. repeat split.
  - eapply frame_sess; [apply open_add_segment_frame|exact H].
  - eapply frame_sess; [apply open_add_grains_frame|exact H].
  - eapply frame_sess; [apply seg_change_frame|exact H].
  - eapply frame_sess; [apply seg_change_frame|exact H].
  - eapply frame_sess; [apply seg_add_grains_frame|exact H].
  - unfold enter. pose proof (open_session_sess e false H) as HO. destruct (open_session e false) as [e1 n]; cbn [fst] in HO.
    destruct (e_streaming e); [eapply frame_sess; [apply start_dump_frame|]|]; exact HO.
  - unfold leave. destruct (e_sync e) as [n|]; [|exact H]. destruct (e_streaming e); [apply close_session_sess, H|].
    pose proof (frame_sess _ _ (start_dump_frame e n true) H) as HS. destruct (start_dump e n true) as [e1 [u|x]]; cbn [fst] in *;
      [apply close_session_sess|]; exact HS.
  - unfold enter. pose proof (open_session_sess e true H) as HO. destruct (open_session e true) as [e1 n]; cbn [fst] in HO.
    destruct (e_streaming e); [eapply frame_sess; [apply start_dump_frame|]|]; exact HO.
  - unfold leave. destruct (e_async e) as [n|]; [|exact H]. destruct (e_streaming e); [apply close_session_sess, H|].
    pose proof (frame_sess _ _ (start_dump_frame e n true) H) as HS. destruct (start_dump e n true) as [e1 [u|x]]; cbn [fst] in *;
      [apply close_session_sess|]; exact HS.
  - pose proof (open_session_sess e false H) as HO. destruct (open_session e false) as [e1 n]; cbn [fst] in HO.
    eapply frame_sess; [apply start_dump_frame|]; exact HO.
  - destruct (e_sync e); [apply close_session_sess|]; exact H.
Qed.

Lemma run_sess ops : forall e, sess_inv e -> sess_inv (run_ops e ops).
Proof. induction ops as [|o ops IH]; intros e H; cbn [run_ops]; [exact H|]. apply IH, step_sess, H. Qed.

Lemma reachable_inv e : reachable e -> inv e /\ sess_inv e.
Proof.
  intros (out & major & minor & id & created & streaming & ops & ->). split.
  - apply run_inv, new_encoder_inv.
  - apply run_sess. intros n [E|E]; discriminate.
Qed.

Lemma reachable_step e ops : reachable e -> reachable (run_ops e ops).
Proof.
  intros (out & major & minor & id & created & streaming & ops0 & ->).
  exists out, major, minor, id, created, streaming, (ops0 ++ ops).
  revert ops. induction ops0 as [|o ops0 IH] using rev_ind; intros ops; [reflexivity|].
  assert (forall a b e, run_ops e (a ++ b) = run_ops (run_ops e a) b) as HA.
  { induction a as [|x a IHa]; intros b e; cbn [app run_ops]; [reflexivity|apply IHa]. }
  rewrite !HA. reflexivity.
Qed.

Lemma run_app a b : forall e, run_ops e (a ++ b) = run_ops (run_ops e a) b.
Proof. induction a as [|x a IHa]; intros e; cbn [app run_ops]; [reflexivity|apply IHa]. Qed.

(** ---------------------------------------------------------------- all at once: the calls *)

Lemma close_session_fields e n async :
  e_out (close_session e n async) = e_out (end_dump e n) /\ e_segs (close_session e n async) = e_segs (end_dump e n).
Proof. unfold close_session. destruct async; split; reflexivity. Qed.

Lemma open_session_fields e async : let (e1, n) := open_session e async in
  n = length (e_sess e) /\ e_segs e1 = e_segs e /\ e_out e1 = e_out e /\ e_major e1 = e_major e /\ e_minor e1 = e_minor e /\
  e_id e1 = e_id e /\ e_created e1 = e_created e /\ e_tags e1 = e_tags e /\ e_streaming e1 = e_streaming e /\
  length (e_sess e1) = S n /\ ss_async (get_ss e1 n) = async /\ (async = false -> e_sync e1 = Some n) /\
  (async = true -> e_async e1 = Some n).
Proof.
  unfold open_session. destruct async; cbn [set_async set_sync set_sess e_segs e_out e_major e_minor e_id e_created e_tags e_streaming e_sess e_sync e_async];
    unfold get_ss; cbn [set_async set_sync set_sess e_sess]; rewrite app_length, nth_middle; cbn [length ss_async];
    repeat split; try discriminate; lia.
Qed.

Lemma complete_file_eq e e' segs tags gs : e_major e = e_major e' -> e_minor e = e_minor e' -> e_id e = e_id e' ->
  e_created e = e_created e' -> complete_file e segs tags gs = complete_file e' segs tags gs.
Proof. unfold complete_file, file_so_far. intros -> -> -> ->. reflexivity. Qed.

Lemma file_so_far_eq e e' segs tags gs : e_major e = e_major e' -> e_minor e = e_minor e' -> e_id e = e_id e' ->
  e_created e = e_created e' -> file_so_far e segs tags gs = file_so_far e' segs tags gs.
Proof. unfold file_so_far. intros -> -> -> ->. reflexivity. Qed.

Theorem at_once_file e ops : reachable e -> at_once e ops -> Forall (encodable (e_major e)) (waiting (e_segs e)) ->
  let e' := run_ops e ops in
  o_data (e_out e') = prior (e_out e) ++ complete_file e (with_counts total (e_segs e)) (e_tags e) (waiting (e_segs e)) /\
  e_segs e' = map flush (map activate (e_segs e)) /\ o_seek (e_out e') = o_seek (e_out e).
Proof.
  intros HR HO HW. apply reachable_inv in HR as [HI HS]. cbv zeta.
  assert (forall n async, (n < length (e_sess e))%nat ->
    exists e1, start_dump e n true = (e1, done) /\
      o_data (e_out (close_session e1 n async)) = prior (e_out e) ++ complete_file e (with_counts total (e_segs e)) (e_tags e) (waiting (e_segs e)) /\
      e_segs (close_session e1 n async) = map flush (map activate (e_segs e)) /\
      o_seek (e_out (close_session e1 n async)) = o_seek (e_out e)) as HD.
  { intros n async Hn. destruct (dump_once e n HI Hn HW) as (e1 & D1 & D2 & D3 & D4 & D5). exists e1.
    destruct (close_session_fields e1 n async) as [-> ->]. auto. }
  destruct HO as [n EF ES|n EF ES|].
  - destruct (HD n false) as (e1 & D1 & D2); [apply HS; auto|]. cbn [run_ops step]. unfold leave. rewrite ES, EF, D1. exact D2.
  - destruct (HD n true) as (e1 & D1 & D2); [apply HS; auto|]. cbn [run_ops step]. unfold leave. rewrite ES, EF, D1. exact D2.
  - clear HD. cbn [run_ops step]. pose proof (open_session_fields e false) as HF.
    pose proof (open_session_inv e false HI) as HI1.
    destruct (open_session e false) as [e1 n]. destruct HF as (F1 & F2 & F3 & F4 & F5 & F6 & F7 & F8 & F9 & F10 & F11 & F12 & _).
    cbn [fst] in *. destruct (dump_once e1 n HI1) as (e2 & D1 & D2 & D3 & D4 & D5); [lia|rewrite F2, F4; exact HW|].
    rewrite D1. cbn [fst]. pose proof (start_dump_frame e1 n true) as (_ & FS & _). rewrite D1 in FS. cbn [fst] in FS.
    rewrite FS, (F12 eq_refl). cbn [fst]. destruct (close_session_fields e2 n false) as [-> ->].
    rewrite D2, D4, D5, F2, F3, F8. split; [|auto]. f_equal. apply complete_file_eq; auto.
Qed.

(** ---------------------------------------------------------------- streaming *)

Lemma all_placed_cpos segs : forall start, 0 <= start -> all_placed start segs -> Forall (fun s => st_cpos s <> -1) segs.
Proof.
  induction segs as [|s t IH]; intros start H0 H; [constructor|]. cbn [all_placed] in H. destruct H as [H1 H2].
  pose proof (count_pos_nonneg (st_e s)). constructor; [lia|]. eapply IH; [|exact H2]. pose proof (zlen_nonneg (enc_segm (st_e s) 0)). lia.
Qed.

Lemma all_placed_placed segs : forall start, all_placed start segs -> placed start segs.
Proof.
  induction segs as [|s t IH]; intros start H; [exact I|]. cbn [all_placed placed] in *. destruct H as [H1 H2].
  split; [right; exact H1|apply IH; exact H2].
Qed.

Lemma all_placed_add_wc log segs : forall start, all_placed start (map (add_wc log) segs) <-> all_placed start segs.
Proof. induction segs as [|s t IH]; intros start; cbn [map all_placed]; [tauto|]. cbn [add_wc st_cpos st_e]. rewrite IH. tauto. Qed.

Lemma placed_segs_parent e aao (P : parent -> Prop) : Forall (fun s => P (st_parent s)) (e_segs e) ->
  Forall (fun s => P (st_parent s)) (placed_segs e aao).
Proof.
  intros H. apply (Forall_map st_parent P). rewrite (placed_segs_map st_parent) by reflexivity. apply Forall_map. exact H.
Qed.

Lemma placed_segs_active e aao : Forall (fun s => st_active s = true) (placed_segs e aao).
Proof.
  assert (forall segs, Forall (fun s => st_active s = true) (map activate segs)) as HM.
  { intros segs. apply Forall_map, Forall_forall. reflexivity. }
  unfold placed_segs. destruct (_ && _); [|apply HM].
  pose proof (HM (e_segs e)) as H. revert H. generalize (map activate (e_segs e)) as l, (head_offsets (15 + zlen (e_id e)) (with_counts (header_count aao) (e_segs e))) as os.
  induction l as [|s l IH]; intros [|o os] H; cbn [set_offsets]; try exact H.
  constructor; [exact (Forall_inv H)|apply IH; exact (Forall_inv_tail H)].
Qed.

(** The state in which streaming starts. *)
Record streaming_state (e : enc) (async : bool) (n : nat) (e1 : enc) : Prop := mkStreaming {
  ss_dumping : dumping e1 async n;
  ss_open : (if async then e_async e1 else e_sync e1) = Some n;
  ss_str : e_streaming e1 = e_streaming e;
  ss_major : e_major e1 = e_major e;
  ss_minor : e_minor e1 = e_minor e;
  ss_id : e_id e1 = e_id e;
  ss_created : e_created e1 = e_created e;
  ss_keys : keys_of e1 = keys_of e;
  ss_es : map st_e (e_segs e1) = map st_e (e_segs e);
  ss_wcs : map st_wc (e_segs e1) = map total (e_segs e);
  ss_seek : o_seek (e_out e1) = o_seek (e_out e);
  ss_placed : o_seek (e_out e) = true -> all_placed (segs_start e) (e_segs e1);
  ss_data : o_data (e_out e1) =
    prior (e_out e) ++ file_so_far e (with_counts (fun _ => -1) (e_segs e)) (e_tags e) (waiting (e_segs e)) }.

Lemma stream_open e async o c : streams e async o c ->
  Forall (encodable (e_major e)) (waiting (e_segs e)) -> (async = false -> from_encoder e) ->
  snd (step e o) = done /\ streaming_state e async (length (e_sess e)) (fst (step e o)).
Proof.
  intros HO HW HF.
  assert (step e o = let (e1, n) := open_session e async in start_dump e1 n false) as EO.
  { destruct HO as [E|E|]; cbn [step]; unfold enter; rewrite ?E; reflexivity. }
  rewrite EO. clear EO. pose proof (open_session_fields e async) as HP.
  destruct (open_session e async) as [e1 n] eqn:EO.
  destruct HP as (-> & F2 & F3 & F4 & F5 & F6 & F7 & F8 & F9 & F10 & F11 & F12 & F13). set (n := length (e_sess e)) in *.
  rewrite start_dump_ok by (rewrite F2, F4; exact HW). cbn [fst snd]. split; [reflexivity|].
  pose proof (get_ss_active e1 n true n ltac:(lia)) as (G1 & G2 & _). rewrite Nat.eqb_refl in G1.
  assert (o_seek (reset_out (e_out e1)) = o_seek (e_out e)) as ER.
  { rewrite F3. unfold reset_out. destruct (o_seek (e_out e)) eqn:E; [reflexivity|exact E]. }
  constructor.
  - constructor.
    + apply at_end_append, at_end_reset.
    + exact G1.
    + change (ss_async (get_ss (set_active e1 n true) n) = async). rewrite G2. exact F11.
    + intros H. exact (F12 H).
    + unfold started. cbn [set_out set_segs e_segs]. apply Forall_map. cbn [flush st_active]. apply placed_segs_active.
    + intros H. unfold started. cbn [set_out set_segs e_segs]. apply Forall_map. cbn [flush st_parent].
      apply (placed_segs_parent e1 false (fun p => p = ParEncoder \/ p = ParOpen n)). rewrite F2.
      eapply Forall_impl; [|exact (HF H)]. auto.
  - destruct async; [exact (F13 eq_refl)|exact (F12 eq_refl)].
  - exact F9.
  - exact F4.
  - exact F5.
  - exact F6.
  - exact F7.
  - unfold keys_of, started. cbn [set_out set_segs e_segs]. rewrite map_map.
    change (map (fun s => (st_local s, st_id s)) (placed_segs e1 false) = map (fun s => (st_local s, st_id s)) (e_segs e)).
    rewrite placed_segs_map by reflexivity. rewrite F2. reflexivity.
  - unfold started. cbn [set_out set_segs e_segs]. rewrite map_map. change (fun x => st_e (flush x)) with st_e.
    rewrite placed_segs_map by reflexivity. rewrite F2. reflexivity.
  - unfold started. cbn [set_out set_segs e_segs]. rewrite map_map. change (fun x => st_wc (flush x)) with total.
    rewrite placed_segs_map by reflexivity. rewrite F2. reflexivity.
  - exact ER.
  - intros E. unfold started. cbn [set_out set_segs e_segs]. apply all_placed_flush.
    replace (segs_start e) with (segs_start e1) by (unfold segs_start; now rewrite F6).
    apply placed_segs_streaming. rewrite F3. exact E.
  - unfold started. cbn [set_out e_out o_append o_data]. rewrite F2, F3, F8.
    replace (o_data (reset_out (e_out e))) with (prior (e_out e)) by (unfold reset_out, prior; destruct (o_seek (e_out e)); reflexivity).
    f_equal. apply file_so_far_eq; auto.
Qed.

Lemma file_so_far_app e segs tags a b : file_so_far e segs tags (a ++ b) = file_so_far e segs tags a ++ flat_map (gbytes (e_major e)) b.
Proof. unfold file_so_far. rewrite flat_map_app, <- !app_assoc. reflexivity. Qed.

(** At every moment of a streaming session the output is the header and all grains added so far. *)
Theorem stream_so_far e async o c ops logs : streams e async o c ->
  Forall (encodable (e_major e)) (waiting (e_segs e)) -> (async = false -> from_encoder e) ->
  Forall (client_of async (length (e_sess e))) ops -> SentAll (e_major e) (keys_of e) (length (e_sess e)) ops logs ->
  o_data (e_out (run_ops e (o :: ops))) =
    prior (e_out e) ++ file_so_far e (with_counts (fun _ => -1) (e_segs e)) (e_tags e) (waiting (e_segs e) ++ logs).
Proof.
  intros HO HW HF HC HS. destruct (stream_open e async o c HO HW HF) as [_ S]. cbn [run_ops].
  assert (wrote (fst (step e o)) (length (e_sess e)) ([] ++ logs) (run_ops (fst (step e o)) ops)) as W.
  { eapply run_wrote; [apply S|exact HC| |apply wrote_refl]. rewrite (ss_major _ _ _ _ S), (ss_keys _ _ _ _ S). exact HS. }
  cbn [app] in W. rewrite (wrote_out _ _ _ _ W). unfold o_append. cbn [o_data].
  rewrite (ss_data _ _ _ _ S), (ss_major _ _ _ _ S), <- app_assoc, <- file_so_far_app. reflexivity.
Qed.

Lemma with_counts_maps c segs a b : map st_e segs = a -> map c segs = b -> with_counts c segs = combine a b.
Proof.
  intros <- <-. unfold with_counts. induction segs as [|s t IH]; [reflexivity|]. cbn [map combine]. now rewrite IH.
Qed.

Lemma map_st_local segs segs' : map st_e segs = map st_e segs' -> map st_local segs = map st_local segs'.
Proof.
  intros H. apply (f_equal (map es_local)) in H. rewrite !map_map in H. exact H.
Qed.

Theorem stream_complete e async o c ops logs : streams e async o c ->
  Forall (encodable (e_major e)) (waiting (e_segs e)) -> (async = false -> from_encoder e) ->
  Forall (client_of async (length (e_sess e))) ops -> SentAll (e_major e) (keys_of e) (length (e_sess e)) ops logs ->
  o_data (e_out (run_ops e (o :: ops ++ [c]))) =
    prior (e_out e) ++ complete_file e (with_counts (final_count (o_seek (e_out e)) logs) (e_segs e)) (e_tags e)
      (waiting (e_segs e) ++ logs).
Proof.
  intros HO HW HF HC HS. destruct (stream_open e async o c HO HW HF) as [_ S].
  pose proof (stream_so_far e async o c ops logs HO HW HF HC HS) as HD. cbn [run_ops] in HD |- *. rewrite run_app.
  set (n := length (e_sess e)) in *. set (e1 := fst (step e o)) in *.
  assert (wrote e1 n ([] ++ logs) (run_ops e1 ops)) as W.
  { eapply run_wrote; [apply S|exact HC| |apply wrote_refl]. rewrite (ss_major _ _ _ _ S), (ss_keys _ _ _ _ S). exact HS. }
  cbn [app] in W. set (e2 := run_ops e1 ops) in *. pose proof (wrote_dumping _ _ _ _ _ W (ss_dumping _ _ _ _ S)) as D.
  assert (e_out (run_ops e2 [c]) = e_out (end_dump e2 n)) as ->.
  { assert ((if async then e_async e2 else e_sync e2) = Some n) as E2.
    { rewrite <- (ss_open _ _ _ _ S). destruct W as [v ->]. destruct async; reflexivity. }
    assert (e_streaming e2 = e_streaming e) as E3.
    { rewrite <- (ss_str _ _ _ _ S). destruct W as [v ->]. reflexivity. }
    cbn [run_ops]. destruct HO as [E|E|]; cbn [step]; unfold leave; rewrite E2, ?E3, ?E; cbn [fst];
      apply (proj1 (close_session_fields _ _ _)). }
  assert (map st_e (e_segs e2) = map st_e (e_segs e)) as ES.
  { rewrite (wrote_segs _ _ _ _ W), map_map. change (fun x => st_e (add_wc logs x)) with st_e. apply S. }
  assert (o_seek (e_out e2) = o_seek (e_out e)) as EK.
  { rewrite (wrote_out _ _ _ _ W). unfold o_append. cbn [o_seek]. apply S. }
  assert (forall k, with_counts (fun _ => k) (e_segs e2) = with_counts (fun _ => k) (e_segs e)) as EC.
  { intros k. rewrite (with_counts_maps _ _ _ (map (fun _ => k) (e_segs e)) ES).
    - symmetry. apply with_counts_maps; reflexivity.
    - apply (f_equal (map (fun _ => k))) in ES. rewrite !map_map in ES. exact ES. }
  assert (o_seek (e_out e) = true -> all_placed (segs_start e) (e_segs e2)) as HP.
  { intros E. rewrite (wrote_segs _ _ _ _ W). apply all_placed_add_wc. apply S. exact E. }
  rewrite (proj1 (end_dump_out e e2 n (fun _ => -1) (e_tags e) (waiting (e_segs e) ++ logs) EK (d_end _ _ _ D)
    ltac:(rewrite EC; exact HD) (fun E => all_placed_placed _ _ (HP E)) (d_active _ _ _ D))).
  f_equal. f_equal. unfold final_count. destruct (o_seek (e_out e)) eqn:EK0; [|apply EC].
  rewrite (with_counts_maps _ (e_segs e2) _ (map (fun s => total s + occurs (st_local s) logs) (e_segs e)) ES).
  - symmetry. apply with_counts_maps; reflexivity.
  - assert (0 <= segs_start e) as H0 by (unfold segs_start; pose proof (zlen_nonneg (e_id e)); lia).
    pose proof (all_placed_cpos _ _ H0 (HP eq_refl)) as HN.
    transitivity (map st_wc (e_segs e2)).
    + apply map_ext_Forall. eapply Forall_impl; [|exact HN]. intros s Hs. unfold recount. destruct (st_cpos s =? -1) eqn:E; [apply Z.eqb_eq in E; contradiction|reflexivity].
    + rewrite (wrote_segs _ _ _ _ W), map_map. unfold add_wc. cbn [st_wc].
      pose proof (ss_wcs _ _ _ _ S) as HC1. pose proof (ss_es _ _ _ _ S) as HC2. apply map_st_local in HC2.
      revert HC1 HC2. generalize (e_segs e1), (e_segs e). induction l as [|s l IH]; intros [|s' l'] A B; try discriminate; [reflexivity|].
      cbn [map] in *. injection A as A1 A2. injection B as B1 B2. rewrite A1, B1. f_equal. apply IH; assumption.
Qed.

(** ---------------------------------------------------------------- adding before dumping *)

Definition push_log (log : list (Z * grain)) (s : segst) : segst := push_grains (of_segment (st_local s) log) s.

Lemma of_segment_app l a b : of_segment l (a ++ b) = of_segment l a ++ of_segment l b.
Proof. unfold of_segment. rewrite filter_app, map_app. reflexivity. Qed.

Lemma of_segment_pairs l l' gs : of_segment l (map (pair l') gs) = if l' =? l then gs else [].
Proof.
  unfold of_segment. induction gs as [|g gs IH]; [destruct (l' =? l); reflexivity|]. cbn [map filter fst].
  destruct (l' =? l); cbn [map snd]; rewrite IH; reflexivity.
Qed.

Lemma push_log_nil s : push_log [] s = s.
Proof. unfold push_log, push_grains, of_segment. cbn [filter map]. rewrite app_nil_r. destruct s; reflexivity. Qed.

Lemma push_log_app a b s : push_log (a ++ b) s = push_log b (push_log a s).
Proof.
  unfold push_log, push_grains, st_local. cbn [st_e st_wc st_cpos st_active st_grains st_parent].
  rewrite of_segment_app, app_assoc. reflexivity.
Qed.

Lemma push_is_log l gs segs : upd_seg l (push_grains gs) segs = map (push_log (map (pair l) gs)) segs.
Proof.
  unfold upd_seg. apply map_ext. intros s. unfold push_log. rewrite of_segment_pairs, Z.eqb_sym.
  destruct (l =? st_local s); [reflexivity|]. unfold push_grains. rewrite app_nil_r. destruct s; reflexivity.
Qed.

Lemma idle_ss e n : idle e -> ss_active (get_ss e n) = false.
Proof.
  intros H. unfold get_ss. destruct (Nat.lt_ge_cases n (length (e_sess e))) as [HL|HL].
  - unfold idle in H. rewrite Forall_forall in H. apply H, nth_In, HL.
  - rewrite nth_overflow by exact HL. reflexivity.
Qed.

Lemma idle_parent e p : idle e -> parent_active e p = false.
Proof.
  intros H. destruct p as [|n]; cbn [parent_active].
  - destruct (e_sync e); [apply idle_ss, H|reflexivity].
  - rewrite idle_ss by exact H. apply andb_false_r.
Qed.

Lemma seg_add_grains_idle e l gs : idle e -> In l (map st_local (e_segs e)) ->
  seg_add_grains e l gs = (set_segs e (map (push_log (map (pair l) gs)) (e_segs e)), done).
Proof.
  intros HI HL. unfold seg_add_grains. destruct (find_seg_in _ _ HL) as [s ->]. rewrite idle_parent by exact HI.
  rewrite push_is_log. reflexivity.
Qed.

Lemma open_add_grains_idle e n gs sid local fresh l : idle e -> lowest l (candidates (keys_of e) sid local) ->
  open_add_grains e n gs sid local fresh = (set_segs e (map (push_log (map (pair l) gs)) (e_segs e)), done).
Proof.
  intros HI HL. apply (find_local_some (e_segs e)) in HL as [EL HIn]. unfold open_add_grains, open_get_segment.
  rewrite EL. destruct (find_seg_in _ _ HIn) as [s ->]. rewrite idle_ss by exact HI. apply seg_add_grains_idle; assumption.
Qed.

Lemma step_given e o log : idle e -> Given (keys_of e) o log ->
  step e o = (set_segs e (map (push_log log) (e_segs e)), done).
Proof.
  intros HI HG. destruct HG as [gs sid local fresh l HL|n gs sid local fresh l HL|l gs HL]; cbn [step].
  - unfold enc_add_grains. destruct (e_sync e) as [n|]; [apply open_add_grains_idle; assumption|].
    apply (find_local_some (e_segs e)) in HL as [EL HIn]. rewrite EL. destruct (find_seg_in _ _ HIn) as [s ->].
    apply seg_add_grains_idle; assumption.
  - apply open_add_grains_idle; assumption.
  - apply seg_add_grains_idle; [exact HI|]. unfold keys_of in HL. rewrite map_map in HL. exact HL.
Qed.

Lemma keys_push e log : keys_of (set_segs e (map (push_log log) (e_segs e))) = keys_of e.
Proof. unfold keys_of. cbn [set_segs e_segs]. rewrite map_map. reflexivity. Qed.

Lemma run_given ops logs keys : GivenAll keys ops logs -> forall e, keys_of e = keys -> idle e ->
  run_ops e ops = set_segs e (map (push_log logs) (e_segs e)).
Proof.
  intros H. induction H as [|o ops log logs HG HA IH]; intros e EK HI; cbn [run_ops].
  - rewrite (map_ext _ id) by (intros s; apply push_log_nil). rewrite map_id. destruct e; reflexivity.
  - subst keys. rewrite (step_given e o log HI HG). cbn [fst]. rewrite IH; [|apply keys_push|exact HI].
    rewrite (map_ext _ (fun s => push_log logs (push_log log s)) (push_log_app log logs)).
    rewrite <- (map_map (push_log log) (push_log logs)). destruct e; reflexivity.
Qed.

Lemma of_segment_waiting segs s : NoDup (map st_local segs) -> In s segs -> of_segment (st_local s) (waiting segs) = st_grains s.
Proof.
  intros HN HI. unfold waiting. induction segs as [|t segs IH]; [contradiction|]. cbn [map flat_map] in *.
  apply NoDup_cons_iff in HN as [HN1 HN2]. rewrite of_segment_app, of_segment_pairs.
  assert (forall l, ~ In l (map st_local segs) -> of_segment l (flat_map (fun s => map (pair (st_local s)) (st_grains s)) segs) = []) as HZ.
  { clear. induction segs as [|t segs IH]; intros l H; [reflexivity|]. cbn [map flat_map] in *. rewrite of_segment_app, of_segment_pairs.
    rewrite IH by (intros X; apply H; right; exact X). destruct (st_local t =? l) eqn:E; [|reflexivity]. exfalso. apply H. left. lia. }
  destruct HI as [-> |HI].
  - rewrite Z.eqb_refl, (HZ _ HN1), app_nil_r. reflexivity.
  - destruct (st_local t =? st_local s) eqn:E.
    + exfalso. apply HN1. replace (st_local t) with (st_local s) by lia. apply in_map, HI.
    + cbn [app]. apply IH; assumption.
Qed.

Lemma waiting_push segs logs : NoDup (map st_local segs) ->
  waiting (map (push_log logs) segs) = segment_by_segment segs (waiting segs ++ logs).
Proof.
  intros HN. unfold waiting at 1, segment_by_segment. rewrite !flat_map_concat_map, map_map. f_equal.
  apply map_ext_in. intros s HI. rewrite of_segment_app, of_segment_waiting by assumption. reflexivity.
Qed.

Lemma occurs_waiting segs s logs : NoDup (map st_local segs) -> In s segs ->
  occurs (st_local s) (waiting segs ++ logs) = zlen (st_grains s) + occurs (st_local s) logs.
Proof. intros HN HI. unfold occurs. rewrite of_segment_app, of_segment_waiting by assumption. apply zlen_app. Qed.

Lemma segment_by_segment_encodable major segs gs : Forall (encodable major) gs -> Forall (encodable major) (segment_by_segment segs gs).
Proof.
  intros H. unfold segment_by_segment. apply Forall_flat_map, Forall_forall. intros s _. apply Forall_map, Forall_forall.
  intros g HI. unfold of_segment in HI. apply in_map_iff in HI as ([l g'] & <- & HI). apply filter_In in HI as [HI E].
  rewrite Forall_forall in H. cbn [fst snd] in *. apply Z.eqb_eq in E as <-. exact (H _ HI).
Qed.

Theorem batch_complete e ops logs hist : reachable e -> idle e -> batch e ops hist -> GivenAll (keys_of e) ops logs ->
  Forall (encodable (e_major e)) (waiting (e_segs e) ++ logs) ->
  o_data (e_out (run_ops e hist)) =
    prior (e_out e) ++ complete_file e (with_counts (final_count true logs) (e_segs e)) (e_tags e)
      (segment_by_segment (e_segs e) (waiting (e_segs e) ++ logs)).
Proof.
  intros HR HI HB HG HE.
  assert (NoDup (map st_local (e_segs e))) as HN by (apply reachable_inv in HR as [HR _]; apply (si_nodup _ _ HR)).
  assert (forall pre post, run_ops e pre = run_ops e pre -> reachable (run_ops e (pre ++ ops)) ->
    forall e1, e1 = run_ops e pre -> idle e1 -> keys_of e1 = keys_of e -> e_segs e1 = e_segs e -> e_out e1 = e_out e ->
      e_major e1 = e_major e -> e_minor e1 = e_minor e -> e_id e1 = e_id e -> e_created e1 = e_created e -> e_tags e1 = e_tags e ->
      at_once (set_segs e1 (map (push_log logs) (e_segs e1))) post ->
      o_data (e_out (run_ops e (pre ++ ops ++ post))) =
        prior (e_out e) ++ complete_file e (with_counts (final_count true logs) (e_segs e)) (e_tags e)
        (segment_by_segment (e_segs e) (waiting (e_segs e) ++ logs))) as HM.
  { intros pre post _ HRE e1 -> HI1 HK1 F2 F3 F4 F5 F6 F7 F8 HO.
    rewrite app_assoc, run_app. rewrite run_app in HRE. rewrite run_app.
    rewrite (run_given ops logs (keys_of e) HG _ HK1 HI1) in *. set (e1 := run_ops e pre) in *.
    destruct (at_once_file _ post HRE HO) as (H1 & _).
    - cbn [set_segs e_segs e_major]. rewrite F2, F4, waiting_push by exact HN. apply segment_by_segment_encodable, HE.
    - rewrite H1. cbn [set_segs e_out e_segs e_tags]. rewrite F2, F3, F8, waiting_push by exact HN. f_equal.
      rewrite (complete_file_eq _ e) by (cbn [set_segs e_major e_minor e_id e_created]; assumption). f_equal.
      unfold with_counts. rewrite map_map. apply map_ext. intros s. unfold push_log, final_count, total. cbn [push_grains st_e st_wc st_grains].
      rewrite zlen_app. unfold occurs. rewrite Z.add_assoc. reflexivity. }
  destruct HB as [E|E|].
  - apply (HM [Enter] [Exit] eq_refl (reachable_step _ _ HR) (fst (step e Enter)) eq_refl); cbn [step]; unfold enter;
      pose proof (open_session_fields e false) as HF; destruct (open_session e false) as [e1 n] eqn:EO; rewrite E; cbn [fst];
      destruct HF as (F1 & F2 & F3 & F4 & F5 & F6 & F7 & F8 & F9 & F10 & F11 & F12 & _); auto.
    + unfold idle in *. unfold open_session in EO. injection EO as <- _. cbn [set_sync set_sess e_sess]. apply Forall_app. split; [exact HI|].
      repeat constructor.
    + unfold keys_of. now rewrite F2.
    + apply (AO_exit _ n); cbn [set_segs e_streaming e_sync]; [congruence|auto].
  - apply (HM [AEnter] [AExit] eq_refl (reachable_step _ _ HR) (fst (step e AEnter)) eq_refl); cbn [step]; unfold enter;
      pose proof (open_session_fields e true) as HF; destruct (open_session e true) as [e1 n] eqn:EO; rewrite E; cbn [fst];
      destruct HF as (F1 & F2 & F3 & F4 & F5 & F6 & F7 & F8 & F9 & F10 & F11 & _ & F12); auto.
    + unfold idle in *. unfold open_session in EO. injection EO as <- _. cbn [set_async set_sess e_sess]. apply Forall_app. split; [exact HI|].
      repeat constructor.
    + unfold keys_of. now rewrite F2.
    + apply (AO_aexit _ n); cbn [set_segs e_streaming e_async]; [congruence|auto].
  - apply (HM [] [StartDump true; EndDump] eq_refl (reachable_step _ _ HR) e eq_refl); auto. constructor.
Qed.

(** ---------------------------------------------------------------- streaming against all at once *)

Lemma given_sent major keys n ops logs : GivenAll keys ops logs -> Forall (encodable major) logs ->
  Forall (client n) ops -> SentAll major keys n ops logs.
Proof.
  intros HG HE HC. induction HG as [|o ops log logs HG HA IH]; [constructor|].
  apply Forall_app in HE as [HE1 HE2]. constructor; [|apply IH; [exact HE2|exact (Forall_inv_tail HC)]].
  apply Forall_inv in HC. clear - HG HE1 HC.
  assert (forall sid local l gs, lowest l (candidates keys sid local) -> Forall (encodable major) (map (pair l) gs) ->
          Routed major keys sid local gs (map (pair l) gs)) as HR.
  { intros sid local l gs HL HE. apply (Ro_some major keys sid local gs l); [exact HL|]. constructor. rewrite Forall_map in HE. exact HE. }
  destruct HG as [gs sid local fresh l HL|m gs sid local fresh l HL|l gs HL].
  - constructor. apply HR; assumption.
  - cbn [client] in HC. subst m. constructor. apply HR; assumption.
  - constructor. apply HR; [|assumption]. split.
    + unfold candidates. apply in_map_iff in HL as (k & <- & HL). apply in_map, filter_In. split; [exact HL|apply Z.eqb_refl].
    + apply Forall_forall. intros x HX. unfold candidates in HX. apply in_map_iff in HX as (k & <- & HX). apply filter_In in HX as [_ HX]. lia.
Qed.
