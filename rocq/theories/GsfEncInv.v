(** An invariant of the encoder that every method call keeps: local ids are distinct, recorded count positions are
    right, segments that have been part of a dump come first and never change. *)
From Verif Require Import Base BaseProofs Utf8 Utf8Proofs GsfPrim GsfPrimProofs GsfBlock GsfBlockProofs
  GsfDecode CogEnums GsfEncode GsfSpec GsfEncodeProofs GsfEncState GsfEncSpec GsfEncStateProofs GsfEncSession.
From Coq Require Import ZifyBool ZifyNat.
Ltac Zify.zify_post_hook ::= Z.div_mod_to_equations.

Definition untouched (s : segst) : Prop := st_active s = false /\ st_cpos s = -1.

Record seg_inv (start : Z) (segs : list segst) : Prop := mkSegInv {
  si_nodup : NoDup (map st_local segs);
  si_placed : placed start segs;
  si_split : exists a b, segs = a ++ b /\ Forall (fun s => st_active s = true) a /\ Forall untouched b;
  si_wc : Forall (fun s => 0 <= st_wc s) segs }.

Definition inv (e : enc) : Prop := seg_inv (segs_start e) (e_segs e).

(** Changes that keep it. *)
Definition same (s s' : segst) : Prop :=
  st_e s = st_e s' /\ st_cpos s = st_cpos s' /\ st_active s = st_active s' /\ st_parent s = st_parent s' /\
  st_wc s <= st_wc s'.

Lemma same_refl s : same s s.
Proof. unfold same. repeat split; lia. Qed.

Lemma same_locals a b : Forall2 same a b -> map st_local a = map st_local b.
Proof. intros H; induction H as [|s s' a b (E & _) H IH]; cbn [map]; [reflexivity|]. unfold st_local at 1 3. now rewrite E, IH. Qed.

Lemma same_placed a b : Forall2 same a b -> forall start, placed start a -> placed start b.
Proof.
  intros H; induction H as [|s s' a b (E & C & _) H IH]; intros start; cbn [placed]; [auto|].
  rewrite <- E, <- C. intros [H1 H2]. split; [exact H1|]. apply IH. exact H2.
Qed.

Lemma seg_inv_same start a b : Forall2 same a b -> seg_inv start a -> seg_inv start b.
Proof.
  intros H [I1 I2 (x & y & -> & I3 & I4) I5]. constructor.
  - rewrite <- (same_locals _ _ H). exact I1.
  - eapply same_placed; eassumption.
  - apply Forall2_app_inv_l in H as (x' & y' & HX & HY & ->). exists x', y'. split; [reflexivity|]. split.
    + clear - HX I3. induction HX as [|s s' a b (_ & _ & E & _) H IH]; [constructor|].
      constructor; [rewrite <- E; exact (Forall_inv I3)|apply IH; exact (Forall_inv_tail I3)].
    + clear - HY I4. induction HY as [|s s' a b (_ & C & E & _) H IH]; [constructor|].
      constructor; [|apply IH; exact (Forall_inv_tail I4)].
      unfold untouched. rewrite <- C, <- E. exact (Forall_inv I4).
  - clear - H I5. induction H as [|s s' a b (_ & _ & _ & _ & E) H IH]; [constructor|].
    constructor; [pose proof (Forall_inv I5); cbv beta in *; lia|apply IH; exact (Forall_inv_tail I5)].
Qed.

Lemma upd_same l f segs : (forall s, same s (f s)) -> Forall2 same segs (upd_seg l f segs).
Proof.
  intros H. unfold upd_seg. induction segs as [|s t IH]; cbn [map]; constructor; [|exact IH].
  destruct (st_local s =? l); [apply H|apply same_refl].
Qed.

Lemma placed_untouched b : forall start, Forall untouched b -> placed start b.
Proof.
  induction b as [|s b IH]; intros start H; cbn [placed]; [exact I|]. split; [left; exact (proj2 (Forall_inv H))|].
  apply IH. exact (Forall_inv_tail H).
Qed.

Lemma placed_app a b : forall start, placed start a -> (forall x, placed x b) -> placed start (a ++ b).
Proof.
  induction a as [|s a IH]; intros start HA HB; cbn [app placed] in *; [apply HB|]. destruct HA. split; [assumption|].
  apply IH; assumption.
Qed.

Lemma placed_app_l a b : forall start, placed start (a ++ b) -> placed start a.
Proof. induction a as [|s a IH]; intros start; cbn [app placed]; [auto|]. intros [H1 H2]. split; [exact H1|]. eapply IH, H2. Qed.

Lemma seg_inv_add start segs id l tags p : seg_inv start segs -> find_seg l segs = None ->
  seg_inv start (segs ++ [new_seg id l tags p]).
Proof.
  intros [I1 I2 (x & y & E & I3 & I4) I5] HN. apply find_seg_none in HN. constructor.
  - rewrite map_app. cbn [map]. change (st_local (new_seg id l tags p)) with l.
    apply (NoDup_Add (a := l) (l := map st_local segs)); [|split; assumption].
    rewrite <- (app_nil_r (map st_local segs)) at 1. apply Add_app.
  - apply placed_app; [exact I2|]. intros z. apply placed_untouched. constructor; [split; reflexivity|constructor].
  - exists x, (y ++ [new_seg id l tags p]). subst segs. split; [rewrite app_assoc; reflexivity|]. split; [exact I3|].
    apply Forall_app. split; [exact I4|]. constructor; [split; reflexivity|constructor].
  - apply Forall_app. split; [exact I5|]. constructor; [cbn; lia|constructor].
Qed.

Lemma seg_inv_change start segs l f s : seg_inv start segs -> find_seg l segs = Some s -> st_active s = false ->
  (forall s, st_local (f s) = st_local s /\ st_cpos (f s) = st_cpos s /\ st_active (f s) = st_active s /\ st_wc (f s) = st_wc s) ->
  seg_inv start (upd_seg l f segs).
Proof.
  intros [I1 I2 (x & y & E & I3 & I4) I5] HF HA Hf. apply find_seg_some in HF as [HI HL].
  assert (map st_local (upd_seg l f segs) = map st_local segs) as EL.
  { unfold upd_seg. rewrite map_map. apply map_ext. intros t. destruct (st_local t =? l); [apply Hf|reflexivity]. }
  assert (upd_seg l f x = x) as EX.
  { unfold upd_seg. rewrite <- (map_id x) at 2. apply map_ext_in. intros t Ht. destruct (st_local t =? l) eqn:ET; [|reflexivity].
    exfalso. assert (In s y) as HIy.
    { rewrite E in HI. apply in_app_or in HI as [HI|HI]; [|exact HI]. rewrite Forall_forall in I3.
      rewrite (I3 s HI) in HA. discriminate. }
    rewrite E, map_app in I1. clear - I1 Ht HIy HL ET. apply in_split in Ht as (x1 & x2 & ->).
    rewrite map_app in I1. cbn [map] in I1. rewrite <- app_assoc in I1. cbn [app] in I1.
    apply NoDup_remove_2 in I1. apply I1. apply in_or_app. right. apply in_or_app. right.
    apply in_map_iff. exists s. split; [lia|exact HIy]. }
  assert (Forall untouched (upd_seg l f y)) as EY.
  { unfold upd_seg. apply Forall_map. eapply Forall_impl; [|exact I4]. intros t [Ht1 Ht2]. cbv beta.
    destruct (Hf t) as (_ & C & A & _). destruct (st_local t =? l); unfold untouched; [rewrite C, A|]; auto. }
  assert (upd_seg l f segs = x ++ upd_seg l f y) as EU.
  { subst segs. unfold upd_seg in *. rewrite map_app, EX. reflexivity. }
  constructor.
  - rewrite EL. exact I1.
  - rewrite EU. apply placed_app; [subst segs; eapply placed_app_l; exact I2|]. intros z. apply placed_untouched. exact EY.
  - exists x, (upd_seg l f y). auto.
  - unfold upd_seg. apply Forall_map. eapply Forall_impl; [|exact I5]. intros t Ht. cbv beta in *.
    destruct (Hf t) as (_ & _ & _ & W). destruct (st_local t =? l); lia.
Qed.

Lemma enc_grain_list_same major gs : forall s, same s (fst (enc_grain_list major s gs)).
Proof.
  induction gs as [|g gs IH]; intros s; cbn [enc_grain_list]; [unfold same; cbn; repeat split; lia|].
  destruct (enc_grain major (st_local s) g); [|apply same_refl].
  pose proof (IH (bump_wc s)) as H. destruct (enc_grain_list major (bump_wc s) gs) as [s' [r|x]]; cbn [fst] in *;
    unfold same in *; cbn [bump_wc st_e st_cpos st_active st_parent st_wc] in H; intuition lia.
Qed.

Lemma enc_all_grains_same major segs : Forall2 same segs (fst (enc_all_grains major segs)).
Proof.
  assert (forall l, Forall2 same l l) as HR by (induction l; constructor; [apply same_refl|assumption]).
  induction segs as [|s t IH]; cbn [enc_all_grains]; [constructor|].
  pose proof (enc_grain_list_same major (st_grains s) s) as H.
  destruct (enc_grain_list major s (st_grains s)) as [s' [bs|x]]; cbn [fst] in *; [|constructor; [exact H|apply HR]].
  destruct (enc_all_grains major t) as [t' [r|x]]; cbn [fst] in *; constructor; assumption.
Qed.

Lemma placed_segs_inv e aao : inv e -> seg_inv (segs_start e) (placed_segs e aao).
Proof.
  intros [I1 I2 I3 I5]. constructor.
  - rewrite placed_segs_map by reflexivity. exact I1.
  - unfold placed_segs. destruct (negb aao && o_seek (e_out e)) eqn:E.
    + apply all_placed_placed. pose proof (placed_segs_streaming e) as H. unfold placed_segs in H.
      apply andb_true_iff in E as [E1 E2]. rewrite E2 in H. cbn [negb andb] in H.
      rewrite (head_offsets_const _ _ (header_count false)). apply H. reflexivity.
    + apply placed_activate. exact I2.
  - exists (placed_segs e aao), []. rewrite app_nil_r. split; [reflexivity|]. split; [|constructor].
    unfold placed_segs. destruct (_ && _).
    + generalize (head_offsets (15 + zlen (e_id e)) (with_counts (header_count aao) (e_segs e))). clear.
      induction (e_segs e) as [|s t IH]; intros offs; destruct offs as [|o os]; cbn [map set_offsets]; constructor; auto.
      clear. induction t; constructor; auto.
    + apply Forall_map, Forall_forall. reflexivity.
  - assert (Forall (fun z => 0 <= z) (map st_wc (placed_segs e aao))) as H.
    { rewrite placed_segs_map by reflexivity. apply Forall_map. exact I5. }
    rewrite Forall_map in H. exact H.
Qed.

Lemma start_dump_inv e n aao : inv e -> inv (fst (start_dump e n aao)).
Proof.
  intros H. rewrite start_dump_eq. cbv zeta.
  pose proof (enc_all_grains_same (e_major e) (placed_segs e aao)) as HS.
  destruct (enc_all_grains (e_major e) (placed_segs e aao)) as [segs3 [bs|x]]; cbn [fst] in *; unfold inv;
    eapply seg_inv_same; try exact HS; exact (placed_segs_inv e aao H).
Qed.

Lemma write_grains_inv local gs : forall e, inv e -> inv (fst (write_grains e local gs)).
Proof.
  induction gs as [|g gs IH]; intros e H; cbn [write_grains]; [exact H|].
  destruct (enc_grain (e_major e) local g) as [bs|x]; [|exact H]. apply IH. unfold inv.
  eapply seg_inv_same; [|exact H]. apply upd_same. intros s. unfold same. cbn. repeat split; lia.
Qed.

Lemma seg_add_grains_inv e local gs : inv e -> inv (fst (seg_add_grains e local gs)).
Proof.
  intros H. unfold seg_add_grains. destruct (find_seg local (e_segs e)); [|exact H].
  destruct (parent_active e _); [apply write_grains_inv; exact H|].
  unfold inv. eapply seg_inv_same; [|exact H]. apply upd_same. intros t. unfold same. cbn. repeat split; lia.
Qed.

Lemma enc_add_segment_inv e id local tags : inv e -> inv (fst (enc_add_segment e id local tags)).
Proof.
  intros H. unfold enc_add_segment. destruct (e_sync e); [exact H|].
  destruct (find_seg _ _) eqn:E; [exact H|]. unfold inv. apply seg_inv_add; [exact H|exact E].
Qed.

Lemma open_add_segment_inv e n id local tags : inv e -> inv (fst (open_add_segment e n id local tags)).
Proof.
  intros H. unfold open_add_segment. destruct (find_seg _ _) eqn:E; [exact H|].
  destruct (ss_active _); [exact H|]. unfold inv. apply seg_inv_add; [exact H|exact E].
Qed.

Lemma open_get_segment_inv e n sid local fresh : inv e -> inv (fst (open_get_segment e n sid local fresh)).
Proof.
  intros H. unfold open_get_segment.
  assert (forall l, inv (fst (if ss_active (get_ss e n) then (e, Err EEncode)
            else open_add_segment e n match sid with Some i => i | None => fresh end l []))) as HC.
  { intros l. destruct (ss_active _); [exact H|apply open_add_segment_inv, H]. }
  destruct (find_local (e_segs e) sid local) as [l|]; [destruct (find_seg l (e_segs e))|]; try apply HC. exact H.
Qed.

Lemma open_add_grains_inv e n gs sid local fresh : inv e -> inv (fst (open_add_grains e n gs sid local fresh)).
Proof.
  intros H. unfold open_add_grains. pose proof (open_get_segment_inv e n sid local fresh H) as HG.
  destruct (open_get_segment e n sid local fresh) as [e1 [l|x]]; cbn [fst] in *; [|exact HG].
  destruct (ss_active _); [apply write_grains_inv|apply seg_add_grains_inv]; exact HG.
Qed.

Lemma enc_add_grains_inv e gs sid local fresh : inv e -> inv (fst (enc_add_grains e gs sid local fresh)).
Proof.
  intros H. unfold enc_add_grains. destruct (e_sync e) eqn:ES; [apply open_add_grains_inv, H|].
  assert (forall l, inv (fst (match enc_add_segment e match sid with Some i => i | None => fresh end l [] with
             | (e1, Ok l) => seg_add_grains e1 l gs | (e1, Err x) => (e1, Err x) end))) as HC.
  { intros l. pose proof (enc_add_segment_inv e match sid with Some i => i | None => fresh end l [] H) as HI.
    destruct (enc_add_segment e _ l []) as [e1 [x|x]]; cbn [fst] in *; [apply seg_add_grains_inv|]; exact HI. }
  destruct (find_local (e_segs e) sid local) as [l|]; [destruct (find_seg l (e_segs e))|]; try apply HC.
  apply seg_add_grains_inv, H.
Qed.

Lemma end_dump_inv e n : inv e -> inv (end_dump e n).
Proof. intros H. unfold end_dump. destruct (ss_active _); exact H. Qed.

Lemma close_session_inv e n async : inv e -> inv (close_session e n async).
Proof. intros H. unfold close_session. pose proof (end_dump_inv e n H). destruct async; assumption. Qed.

Lemma open_session_inv e async : inv e -> inv (fst (open_session e async)).
Proof. intros H. unfold open_session. destruct async; exact H. Qed.

Lemma seg_change_inv e local f : inv e ->
  (forall s, st_local (f s) = st_local s /\ st_cpos (f s) = st_cpos s /\ st_active (f s) = st_active s /\ st_wc (f s) = st_wc s) ->
  inv (fst (seg_change e local f)).
Proof.
  intros H Hf. unfold seg_change. destruct (find_seg local (e_segs e)) as [s|] eqn:E; [|exact H].
  destruct (st_active s) eqn:EA; [exact H|]. unfold inv. eapply seg_inv_change; try eassumption.
Qed.

Theorem step_inv e o : inv e -> inv (fst (step e o)).
Proof.
  intros H. destruct o; cbn [step].
  - destruct (e_sync e); exact H.
  - apply enc_add_segment_inv, H.
  - apply enc_add_grains_inv, H.
  - destruct (ss_active _); exact H.
  - apply open_add_segment_inv, H.
  - apply open_add_grains_inv, H.
  - apply seg_change_inv; [exact H|]. intros s. repeat split; reflexivity.
  - apply seg_change_inv; [exact H|]. intros s. repeat split; reflexivity.
  - apply seg_add_grains_inv, H.
  - unfold enter. pose proof (open_session_inv e false H) as HO. destruct (open_session e false) as [e1 n]; cbn [fst] in HO.
    destruct (e_streaming e); [apply start_dump_inv|]; exact HO.
  - unfold leave. destruct (e_sync e) as [n|]; [|exact H]. destruct (e_streaming e); [apply close_session_inv, H|].
    pose proof (start_dump_inv e n true H) as HS. destruct (start_dump e n true) as [e1 [u|x]]; cbn [fst] in *;
      [apply close_session_inv|]; exact HS.
  - unfold enter. pose proof (open_session_inv e true H) as HO. destruct (open_session e true) as [e1 n]; cbn [fst] in HO.
    destruct (e_streaming e); [apply start_dump_inv|]; exact HO.
  - unfold leave. destruct (e_async e) as [n|]; [|exact H]. destruct (e_streaming e); [apply close_session_inv, H|].
    pose proof (start_dump_inv e n true H) as HS. destruct (start_dump e n true) as [e1 [u|x]]; cbn [fst] in *;
      [apply close_session_inv|]; exact HS.
  - pose proof (open_session_inv e false H) as HO. destruct (open_session e false) as [e1 n]; cbn [fst] in HO.
    apply start_dump_inv; exact HO.
  - destruct (e_sync e); [apply close_session_inv|]; exact H.
Qed.

Lemma new_encoder_inv out major minor id created streaming : inv (new_encoder out major minor id created streaming).
Proof.
  unfold inv. cbn. constructor; cbn [map placed]; try constructor.
  exists [], []. repeat split; constructor.
Qed.

Lemma run_inv ops : forall e, inv e -> inv (run_ops e ops).
Proof. induction ops as [|o ops IH]; intros e H; cbn [run_ops]; [exact H|]. apply IH, step_inv, H. Qed.
