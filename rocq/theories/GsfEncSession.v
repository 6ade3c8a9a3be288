(** What the calls made during a dump do. *)
From Verif Require Import Base BaseProofs Utf8 Utf8Proofs GsfPrim GsfPrimProofs GsfBlock GsfBlockProofs
  GsfDecode CogEnums GsfEncode GsfSpec GsfEncodeProofs GsfEncState GsfEncSpec GsfEncStateProofs.
From Coq Require Import ZifyBool ZifyNat.
Ltac Zify.zify_post_hook ::= Z.div_mod_to_equations.

(** ---------------------------------------------------------------- finding a segment *)

Lemma find_seg_some l segs s : find_seg l segs = Some s -> In s segs /\ st_local s = l.
Proof. unfold find_seg. intros H. apply find_some in H as [H1 H2]. split; [exact H1|lia]. Qed.

Lemma find_seg_none l segs : find_seg l segs = None <-> ~ In l (map st_local segs).
Proof.
  unfold find_seg. split.
  - intros H HI. apply in_map_iff in HI as (s & E & HI). pose proof (find_none _ _ H s HI) as HN. cbv beta in HN. lia.
  - intros H. destruct (find _ segs) as [s|] eqn:E; [|reflexivity]. exfalso. apply H.
    apply find_some in E as [HI HE]. apply in_map_iff. exists s. split; [lia|exact HI].
Qed.

Lemma find_seg_in l segs : In l (map st_local segs) -> exists s, find_seg l segs = Some s.
Proof.
  intros H. destruct (find_seg l segs) as [s|] eqn:E; [eauto|]. apply find_seg_none in E. contradiction.
Qed.

Lemma zmin_lowest l x : zmin l = Some x -> lowest x l.
Proof.
  revert x; induction l as [|y t IH]; intros x H; [discriminate|]. cbn [zmin] in H.
  destruct (zmin t) as [z|] eqn:E.
  - injection H as <-. destruct (IH z eq_refl) as [HI HF]. split.
    + destruct (Z.min_spec y z) as [[_ ->]|[_ ->]]; [left; reflexivity|right; exact HI].
    + constructor; [lia|]. eapply Forall_impl; [|exact HF]. intros w Hw. cbv beta in *. lia.
  - injection H as <-. assert (t = []) as -> by (destruct t as [|w t]; [reflexivity|cbn [zmin] in E; destruct (zmin t); discriminate]).
    split; [left; reflexivity|]. constructor; [lia|constructor].
Qed.

Lemma zmin_none l : zmin l = None <-> l = [].
Proof. split; [|intros ->; reflexivity]. destruct l as [|w t]; [reflexivity|cbn [zmin]; destruct (zmin t); discriminate]. Qed.

Lemma lowest_unique l l' cs : lowest l cs -> lowest l' cs -> l = l'.
Proof.
  intros [H1 H2] [H3 H4]. rewrite Forall_forall in H2, H4. pose proof (H2 _ H3). pose proof (H4 _ H1). lia.
Qed.

Definition keys (segs : list segst) : list (Z * bytes) := map (fun s => (st_local s, st_id s)) segs.

Lemma candidates_id segs sid : candidates (keys segs) sid None = map st_local (filter (id_matches sid) segs).
Proof.
  unfold candidates, keys, id_matches. induction segs as [|s t IH]; [reflexivity|]. cbn [map filter fst snd].
  destruct sid as [i|]; [destruct (zlist_eqb (st_id s) i)|]; cbn [map fst]; rewrite IH; reflexivity.
Qed.

Lemma candidates_local_in segs sid l x : In x (candidates (keys segs) sid (Some l)) <-> x = l /\ In l (map st_local segs).
Proof.
  unfold candidates, keys. rewrite in_map_iff. split.
  - intros (k & E & HI). apply filter_In in HI as [HI HE]. apply in_map_iff in HI as (s & <- & HI). cbn [fst] in *.
    split; [lia|]. apply in_map_iff. exists s. split; [lia|exact HI].
  - intros [-> HI]. apply in_map_iff in HI as (s & <- & HI). exists (st_local s, st_id s). split; [reflexivity|].
    apply filter_In. split; [apply in_map_iff; exists s; auto|]. cbn [fst]. lia.
Qed.

Lemma find_local_none segs sid local : candidates (keys segs) sid local = [] ->
  match find_local segs sid local with Some l => find_seg l segs = None | None => True end.
Proof.
  intros H. destruct local as [l|]; cbn [find_local].
  - apply find_seg_none. intros HI.
    assert (In l (candidates (keys segs) sid (Some l))) as HC by (apply candidates_local_in; auto). rewrite H in HC. exact HC.
  - rewrite candidates_id in H. rewrite H. exact I.
Qed.

Lemma find_local_some segs sid local l : lowest l (candidates (keys segs) sid local) ->
  find_local segs sid local = Some l /\ In l (map st_local segs).
Proof.
  intros HL. pose proof HL as [HI HF]. destruct local as [l'|]; cbn [find_local].
  - apply candidates_local_in in HI as [-> HI]. auto.
  - rewrite candidates_id in *. split.
    + destruct (zmin (map st_local (filter (id_matches sid) segs))) as [x|] eqn:E.
      * f_equal. eapply lowest_unique; [apply zmin_lowest; exact E|exact HL].
      * apply zmin_none in E. rewrite E in HI. contradiction.
    + apply in_map_iff in HI as (s & <- & HI). apply filter_In in HI as [HI _]. apply in_map. exact HI.
Qed.

Lemma candidates_cases segs sid local :
  candidates (keys segs) sid local = [] \/ exists l, lowest l (candidates (keys segs) sid local).
Proof.
  destruct (candidates (keys segs) sid local) as [|x t] eqn:E; [auto|]. right.
  destruct (zmin (x :: t)) as [y|] eqn:EZ; [exists y; apply zmin_lowest; exact EZ|]. apply zmin_none in EZ. discriminate.
Qed.

(** ---------------------------------------------------------------- the state during a dump *)

Definition add_wc (log : list (Z * grain)) (s : segst) : segst :=
  mkSt (st_e s) (st_wc s + occurs (st_local s) log) (st_cpos s) (st_active s) (st_grains s) (st_parent s).

Lemma occurs_app l a b : occurs l (a ++ b) = occurs l a + occurs l b.
Proof. unfold occurs, of_segment. rewrite filter_app, map_app, zlen_app. reflexivity. Qed.

Lemma add_wc_nil s : add_wc [] s = s.
Proof. unfold add_wc. change (occurs (st_local s) []) with 0. rewrite Z.add_0_r. destruct s; reflexivity. Qed.

Lemma add_wc_app a b s : add_wc (a ++ b) s = add_wc b (add_wc a s).
Proof. unfold add_wc at 1 2. cbn [add_wc st_e st_wc st_cpos st_active st_grains st_parent]. unfold st_local. cbn [add_wc st_e]. rewrite occurs_app. f_equal. lia. Qed.

Lemma bump_is_add_wc l g segs : upd_seg l bump_wc segs = map (add_wc [(l, g)]) segs.
Proof.
  unfold upd_seg. apply map_ext. intros s. unfold add_wc, occurs, of_segment. cbn [filter fst].
  rewrite Z.eqb_sym. destruct (l =? st_local s); cbn [map snd]; [reflexivity|].
  rewrite zlen_nil, Z.add_0_r. destruct s; reflexivity.
Qed.

(** [wrote e0 n log e]: [e] is [e0] with the grains of [log] written, up to open encoder [n]'s next local id. *)
Definition after_log (e0 : enc) (log : list (Z * grain)) : enc :=
  set_out (set_segs e0 (map (add_wc log) (e_segs e0))) (o_append (e_out e0) (flat_map (gbytes (e_major e0)) log)).
Definition wrote (e0 : enc) (n : nat) (log : list (Z * grain)) (e : enc) : Prop :=
  exists v, e = set_ss_next (after_log e0 log) n v.

(** A dump in progress on open encoder [n]. *)
Record dumping (e : enc) (async : bool) (n : nat) : Prop := mkDumping {
  d_end : at_end (e_out e);
  d_active : ss_active (get_ss e n) = true;
  d_async : ss_async (get_ss e n) = async;
  d_sync : async = false -> e_sync e = Some n;
  d_segs : Forall (fun s => st_active s = true) (e_segs e);
  d_live : async = false -> Forall (fun s => st_parent s = ParEncoder \/ st_parent s = ParOpen n) (e_segs e) }.

Lemma upd_nth_id {A} (f : A -> A) l : (forall x, f x = x) -> forall n, upd_nth n f l = l.
Proof. intros H. induction l as [|x l IH]; intros [|n]; cbn [upd_nth]; rewrite ?H, ?IH; reflexivity. Qed.

Lemma upd_nth_ext {A} (f : A -> A) d l : forall n, f (nth n l d) = nth n l d -> upd_nth n f l = l.
Proof.
  induction l as [|x l IH]; intros [|n] H; cbn [upd_nth nth] in *; try reflexivity; [now rewrite H|now rewrite IH].
Qed.

Lemma set_ss_next_self e n : set_ss_next e n (ss_next (get_ss e n)) = e.
Proof.
  unfold set_ss_next, set_sess. rewrite (upd_nth_ext _ (mkSs false 1 false)).
  - destruct e; reflexivity.
  - unfold get_ss. destruct (nth n (e_sess e) _); reflexivity.
Qed.

Lemma upd_nth_twice {A} (f g : A -> A) l : forall n, upd_nth n f (upd_nth n g l) = upd_nth n (fun x => f (g x)) l.
Proof. induction l as [|x l IH]; intros [|n]; cbn [upd_nth]; try reflexivity. now rewrite IH. Qed.

Lemma set_ss_next_twice e n v w : set_ss_next (set_ss_next e n v) n w = set_ss_next e n w.
Proof.
  unfold set_ss_next, set_sess. cbn [e_sess e_major e_minor e_id e_created e_streaming e_tags e_segs e_next e_sync e_async e_out].
  rewrite upd_nth_twice. reflexivity.
Qed.

Lemma nth_upd_nth {A} (f : A -> A) d l : forall n m,
  nth m (upd_nth n f l) d = if (m =? n)%nat then (if (n <? length l)%nat then f (nth n l d) else nth m l d) else nth m l d.
Proof.
  induction l as [|x l IH]; intros [|n] [|m]; cbn [upd_nth nth length Nat.eqb]; try reflexivity.
  - destruct (m =? n)%nat; reflexivity.
  - rewrite IH. reflexivity.
Qed.

Lemma get_ss_set_next e n v m :
  ss_active (get_ss (set_ss_next e n v) m) = ss_active (get_ss e m) /\
  ss_async (get_ss (set_ss_next e n v) m) = ss_async (get_ss e m).
Proof.
  unfold get_ss, set_ss_next, set_sess. cbn [e_sess]. rewrite nth_upd_nth.
  destruct (m =? n)%nat eqn:E; [|split; reflexivity]. apply Nat.eqb_eq in E as ->.
  destruct (n <? length (e_sess e))%nat; split; reflexivity.
Qed.

Lemma wrote_refl e n : wrote e n [] e.
Proof.
  exists (ss_next (get_ss e n)). unfold after_log. cbn [flat_map]. rewrite o_append_nil.
  rewrite (map_ext _ id) by (intros s; apply add_wc_nil). rewrite map_id.
  replace (set_out (set_segs e (e_segs e)) (e_out e)) with e by (destruct e; reflexivity).
  symmetry. apply set_ss_next_self.
Qed.

Lemma wrote_next e0 n log e v : wrote e0 n log e -> wrote e0 n log (set_ss_next e n v).
Proof. intros [w ->]. exists v. rewrite set_ss_next_twice. reflexivity. Qed.

Lemma wrote_segs e0 n log e : wrote e0 n log e -> e_segs e = map (add_wc log) (e_segs e0).
Proof. intros [v ->]. reflexivity. Qed.
Lemma wrote_major e0 n log e : wrote e0 n log e -> e_major e = e_major e0.
Proof. intros [v ->]. reflexivity. Qed.
Lemma wrote_out e0 n log e : wrote e0 n log e -> e_out e = o_append (e_out e0) (flat_map (gbytes (e_major e0)) log).
Proof. intros [v ->]. reflexivity. Qed.
Lemma wrote_sync e0 n log e : wrote e0 n log e -> e_sync e = e_sync e0.
Proof. intros [v ->]. reflexivity. Qed.
Lemma wrote_keys e0 n log e : wrote e0 n log e -> keys_of e = keys_of e0.
Proof. intros W. unfold keys_of. rewrite (wrote_segs _ _ _ _ W), map_map. apply map_ext. reflexivity. Qed.
Lemma wrote_locals e0 n log e : wrote e0 n log e -> map st_local (e_segs e) = map st_local (e_segs e0).
Proof. intros W. rewrite (wrote_segs _ _ _ _ W), map_map. apply map_ext. reflexivity. Qed.
Lemma wrote_ss e0 n log e m : wrote e0 n log e ->
  ss_active (get_ss e m) = ss_active (get_ss e0 m) /\ ss_async (get_ss e m) = ss_async (get_ss e0 m).
Proof. intros [v ->]. exact (get_ss_set_next (after_log e0 log) n v m). Qed.

Lemma wrote_dumping e0 n log e async : wrote e0 n log e -> dumping e0 async n -> dumping e async n.
Proof.
  intros W [D1 D2 D3 D4 D5 D6]. constructor.
  - rewrite (wrote_out _ _ _ _ W). apply at_end_append, D1.
  - rewrite (proj1 (wrote_ss _ _ _ _ n W)). exact D2.
  - rewrite (proj2 (wrote_ss _ _ _ _ n W)). exact D3.
  - intros H. rewrite (wrote_sync _ _ _ _ W). auto.
  - rewrite (wrote_segs _ _ _ _ W). apply Forall_map. exact D5.
  - intros H. rewrite (wrote_segs _ _ _ _ W). apply Forall_map. exact (D6 H).
Qed.

Lemma wrote_one e0 n log e local g bs : wrote e0 n log e ->
  enc_grain (e_major e0) local g = Ok bs -> at_end (e_out e0) ->
  wrote e0 n (log ++ [(local, g)])
    (set_out (set_segs e (upd_seg local bump_wc (e_segs e))) (o_write (e_out e) bs)).
Proof.
  intros W HE HA. rewrite (bump_is_add_wc local g), (wrote_segs _ _ _ _ W), (wrote_out _ _ _ _ W).
  rewrite o_write_append by (apply at_end_append; exact HA). rewrite o_append_app.
  rewrite map_map. rewrite (map_ext _ (add_wc (log ++ [(local, g)]))) by (intros s; symmetry; apply add_wc_app).
  assert (gbytes (e_major e0) (local, g) = bs) as EG by (unfold gbytes; cbn [fst snd]; now rewrite HE).
  destruct W as [v ->]. exists v. unfold after_log. rewrite flat_map_app. cbn [flat_map]. rewrite app_nil_r, EG.
  reflexivity.
Qed.

Lemma write_grains_wrote e0 n local lg gs : Accepted (e_major e0) local gs lg -> at_end (e_out e0) ->
  forall log e, wrote e0 n log e -> wrote e0 n (log ++ lg) (fst (write_grains e local gs)).
Proof.
  intros HA HE. destruct HA as [gs HF|gs g bad HF HN].
  - induction HF as [|g gs (bs & Hg) HF IH]; intros log e W; cbn [write_grains map].
    + rewrite app_nil_r. exact W.
    + cbn [fst snd] in Hg. rewrite (wrote_major _ _ _ _ W), Hg.
      change ((local, g) :: map (pair local) gs) with ([(local, g)] ++ map (pair local) gs). rewrite app_assoc.
      apply IH. apply wrote_one; assumption.
  - induction HF as [|g' gs (bs & Hg) HF IH]; intros log e W; cbn [write_grains map app].
    + rewrite app_nil_r, (wrote_major _ _ _ _ W). destruct (enc_grain (e_major e0) local g) as [bs|x] eqn:E.
      * exfalso. apply HN. exists bs. exact E.
      * exact W.
    + cbn [fst snd] in Hg. rewrite (wrote_major _ _ _ _ W), Hg.
      change ((local, g') :: map (pair local) gs) with ([(local, g')] ++ map (pair local) gs). rewrite app_assoc.
      apply IH. apply wrote_one; assumption.
Qed.

Lemma seg_change_active e local f : Forall (fun s => st_active s = true) (e_segs e) ->
  exists x, seg_change e local f = (e, Err x).
Proof.
  intros H. unfold seg_change. destruct (find_seg local (e_segs e)) as [s|] eqn:E; [|eauto].
  apply find_seg_some in E as [HI _]. rewrite Forall_forall in H. rewrite (H s HI). eauto.
Qed.

Lemma open_add_segment_active e n id local tags : ss_active (get_ss e n) = true ->
  exists v x, open_add_segment e n id local tags = (set_ss_next e n v, Err x).
Proof.
  intros H. unfold open_add_segment. destruct (find_seg _ _); [eauto|]. rewrite H. eauto.
Qed.

Lemma open_add_grains_wrote e0 async n gs sid local fresh lg log e :
  dumping e0 async n -> wrote e0 n log e -> Routed (e_major e0) (keys_of e0) sid local gs lg ->
  wrote e0 n (log ++ lg) (fst (open_add_grains e n gs sid local fresh)).
Proof.
  intros D W HR. pose proof (wrote_dumping _ _ _ _ _ W D) as D'. unfold open_add_grains, open_get_segment.
  rewrite <- (wrote_keys _ _ _ _ W) in HR. unfold keys_of in HR. fold (keys (e_segs e)) in HR.
  rewrite (d_active _ _ _ D'). destruct HR as [HC|l lg HC HA].
  - apply find_local_none in HC. rewrite app_nil_r.
    destruct (find_local (e_segs e) sid local) as [l|]; [rewrite HC|]; exact W.
  - apply find_local_some in HC as [-> HI]. apply find_seg_in in HI as [s ->]. rewrite (d_active _ _ _ D').
    apply write_grains_wrote; [exact HA|apply (d_end _ _ _ D)|exact W].
Qed.

Lemma step_wrote e0 async n o lg log e :
  dumping e0 async n -> wrote e0 n log e -> client_of async n o -> Sent (e_major e0) (keys_of e0) n o lg ->
  wrote e0 n (log ++ lg) (fst (step e o)).
Proof.
  intros D W HC HS. pose proof (wrote_dumping _ _ _ _ _ W D) as D'.
  destruct HS as [kv|id local tags|kv|id local tags|l kv|l fl|gs sid local fresh lg HR|gs sid local fresh lg HR|l gs lg HR];
    cbn [step].
  - destruct async; [contradiction|]. rewrite (d_sync _ _ _ D' eq_refl). rewrite app_nil_r. exact W.
  - destruct async; [contradiction|]. unfold enc_add_segment. rewrite (d_sync _ _ _ D' eq_refl).
    rewrite app_nil_r. exact W.
  - rewrite (d_active _ _ _ D'). rewrite app_nil_r. exact W.
  - destruct (open_add_segment_active e n id local tags (d_active _ _ _ D')) as (v & x & ->).
    rewrite app_nil_r. apply wrote_next. exact W.
  - destruct (seg_change_active e l (add_seg_tag kv) (d_segs _ _ _ D')) as [x ->]. rewrite app_nil_r. exact W.
  - destruct (seg_change_active e l (set_seg_flow fl) (d_segs _ _ _ D')) as [x ->]. rewrite app_nil_r. exact W.
  - destruct async; [contradiction|]. unfold enc_add_grains. rewrite (d_sync _ _ _ D' eq_refl).
    eapply open_add_grains_wrote; eassumption.
  - eapply open_add_grains_wrote; eassumption.
  - destruct async; [contradiction|]. unfold seg_add_grains.
    rewrite <- (wrote_keys _ _ _ _ W) in HR. unfold keys_of in HR. fold (keys (e_segs e)) in HR.
    destruct HR as [HE|l' lg HL HA].
    + apply find_local_none in HE. cbn [find_local] in HE. rewrite HE, app_nil_r. exact W.
    + apply find_local_some in HL as [E HI]. cbn [find_local] in E. injection E as <-.
      destruct (find_seg_in _ _ HI) as [s ES]. rewrite ES. apply find_seg_some in ES as [HIs _].
      assert (parent_active e (st_parent s) = true) as ->.
      { pose proof (d_live _ _ _ D' eq_refl) as HL. rewrite Forall_forall in HL.
        destruct (HL s HIs) as [-> | ->]; cbn [parent_active].
        - rewrite (d_sync _ _ _ D' eq_refl). apply (d_active _ _ _ D').
        - rewrite (d_async _ _ _ D'), (d_active _ _ _ D'). reflexivity. }
      apply write_grains_wrote; [exact HA|apply (d_end _ _ _ D)|exact W].
Qed.

Lemma run_wrote e0 async n ops logs : dumping e0 async n -> Forall (client_of async n) ops ->
  SentAll (e_major e0) (keys_of e0) n ops logs ->
  forall log e, wrote e0 n log e -> wrote e0 n (log ++ logs) (run_ops e ops).
Proof.
  intros D HC HS. induction HS as [|o ops lg logs HS HSA IH]; intros log e W; cbn [run_ops].
  - rewrite app_nil_r. exact W.
  - rewrite app_assoc. apply IH; [exact (Forall_inv_tail HC)|].
    eapply step_wrote; try eassumption. exact (Forall_inv HC).
Qed.
