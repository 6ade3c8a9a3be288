(** Proofs about deferred grains. *)
From Verif Require Import Base BaseProofs GsfDecode LazyGrains LazySpec IoBytesSpec.
From Coq Require Import ZifyBool ZifyNat.
Ltac Zify.zify_post_hook ::= Z.div_mod_to_equations.

Lemma nth_set {A} (l : list A) : forall i x j,
  nth_error (set_nth i x l) j = if Nat.eqb i j then option_map (fun _ => x) (nth_error l j) else nth_error l j.
Proof.
  induction l as [|y l IH]; intros [|i] x [|j]; cbn [set_nth nth_error Nat.eqb option_map]; try reflexivity; [now destruct (Nat.eqb i j)|apply IH].
Qed.

(** The grain as it is once awaited. *)
Definition got (file : bytes) (g : lazy) : lazy := mkLz (lz_pos g) (lz_len g) (lz_exit g) (Some (lz_bytes file g)) true.
Definition now (file : bytes) (done : list lop) (i : nat) (g : lazy) : lazy := if awaited done i then got file g else g.

Record open_inv (file : bytes) (strict : bool) (gs : list lazy) (done : list lop) (s : lsess) : Prop := mkOpen {
  oi_file : ls_file s = file; oi_strict : ls_strict s = strict; oi_exiting : ls_exiting s = false;
  oi_keys : ls_keys s = filter (fun k => negb (awaited done k)) (seq 0 (length gs));
  oi_grains : forall i, nth_error (ls_grains s) i = option_map (now file done i) (nth_error gs i) }.

Lemma awaited_app a b i : awaited (a ++ b) i = awaited a i || awaited b i.
Proof. apply existsb_app. Qed.

Lemma lz_data_now file done i g : untouched g -> lz_data (now file done i g) = if awaited done i then Some (lz_bytes file g) else None.
Proof. intros [H1 H2]. unfold now. destruct (awaited done i); [reflexivity|exact H1]. Qed.

Lemma readable_short file strict g : readable file strict g -> strict && (zlen (lz_bytes file g) <? lz_len g) = false.
Proof.
  intros (H1 & H2 & H3). destruct strict; [|reflexivity]. specialize (H3 eq_refl). unfold lz_bytes, region.
  rewrite zlen_zfirst, zlen_zskip by lia. lia.
Qed.

Lemma key_listed (gs : list lazy) done i g : nth_error gs i = Some g -> awaited done i = false ->
  existsb (Nat.eqb i) (filter (fun k => negb (awaited done k)) (seq 0 (length gs))) = true.
Proof.
  intros H HA. apply existsb_exists. exists i. split; [|apply Nat.eqb_refl]. apply filter_In. split; [|now rewrite HA].
  apply in_seq. split; [lia|]. cbn. apply nth_error_Some. congruence.
Qed.

Lemma filter_filter {A} (p q : A -> bool) l : filter p (filter q l) = filter (fun x => q x && p x) l.
Proof. induction l as [|x l IH]; [reflexivity|]. cbn [filter]. destruct (q x); cbn [filter andb]; [destruct (p x); now rewrite IH|exact IH]. Qed.

Lemma open_step file strict gs done s o : Forall untouched gs -> Forall (readable file strict) gs -> inside (length gs) o ->
  open_inv file strict gs done s ->
  open_inv file strict gs (done ++ [o]) (fst (lz_step s o)) /\ snd (lz_step s o) = while_open file gs o /\
  ls_pos (fst (lz_step s o)) = match o with LMove p => p | _ => ls_pos s end.
Proof.
  intros HU HR HI [I1 I2 I3 I4 I5]. destruct o as [i|p|]; [| |contradiction HI].
  - cbn [lz_step while_open]. unfold lz_await. rewrite I5.
    destruct (nth_error gs i) as [g|] eqn:EN; [|cbn [inside] in HI; apply nth_error_None in EN; lia]. cbn [option_map].
    pose proof (nth_error_In _ _ EN) as HIn. rewrite Forall_forall in HU, HR. specialize (HU g HIn). specialize (HR g HIn).
    assert (forall j, awaited (done ++ [LAwait i]) j = awaited done j || Nat.eqb j i) as EA
      by (intros j; rewrite awaited_app; cbn [awaited existsb]; now rewrite orb_false_r).
    rewrite (lz_data_now file done i g HU). destruct (awaited done i) eqn:EI.
    + cbn [fst snd]. split; [|split; reflexivity]. constructor; try assumption.
      * rewrite I4. apply filter_ext. intros k. rewrite EA. destruct (Nat.eqb_spec k i) as [->|N]; [now rewrite EI|now rewrite orb_false_r].
      * intros j. rewrite I5. destruct (nth_error gs j) as [g'|]; [|reflexivity]. cbn [option_map]. f_equal. unfold now. rewrite EA.
        destruct (Nat.eqb_spec j i) as [->|N]; [now rewrite EI|now rewrite orb_false_r].
    + assert (now file done i g = g) as EQ by (unfold now; now rewrite EI). rewrite EQ. destruct HU as [HU1 HU2]. rewrite HU2. unfold lz_fetch.
      rewrite I3. cbn [negb]. rewrite orb_true_r. rewrite I4, (key_listed gs done i g EN EI), I1, I2.
      fold (region file (lz_pos g) (lz_len g)). fold (lz_bytes file g). rewrite (readable_short file strict g HR).
      unfold ls_update. cbn [fst snd ls_file ls_strict ls_pos ls_exiting ls_keys ls_grains]. split; [|split; reflexivity].
      constructor; cbn [ls_file ls_strict ls_pos ls_exiting ls_keys ls_grains]; try assumption.
      * rewrite filter_filter. apply filter_ext. intros k. rewrite EA, negb_orb. f_equal. f_equal. apply Nat.eqb_sym.
      * intros j. rewrite nth_set. destruct (Nat.eqb_spec i j) as [<-|N].
        -- rewrite I5, EN. cbn [option_map]. f_equal. unfold now. rewrite EA, Nat.eqb_refl, orb_true_r. reflexivity.
        -- rewrite I5. destruct (nth_error gs j) as [g'|]; [|reflexivity]. cbn [option_map]. f_equal. unfold now. rewrite EA.
           destruct (Nat.eqb_spec j i) as [->|N2]; [now contradiction N|now rewrite orb_false_r].
  - cbn [lz_step while_open fst snd ls_move ls_pos]. split; [|split; reflexivity].
    assert (forall j, awaited (done ++ [LMove p]) j = awaited done j) as EA
      by (intros j; rewrite awaited_app; cbn [awaited existsb]; now rewrite orb_false_r).
    constructor; cbn [ls_file ls_strict ls_pos ls_exiting ls_keys ls_grains ls_move]; try assumption.
    + rewrite I4. apply filter_ext. intros k. now rewrite EA.
    + intros j. rewrite I5. unfold now. now rewrite EA.
Qed.

Lemma lz_run_app a : forall s b, lz_run s (a ++ b) =
  (fst (lz_run (fst (lz_run s a)) b), snd (lz_run s a) ++ snd (lz_run (fst (lz_run s a)) b)).
Proof.
  induction a as [|o a IH]; intros s b; [cbn; now destruct (lz_run s b)|]. cbn [app lz_run].
  destruct (lz_step s o) as [s1 r]. rewrite IH. destruct (lz_run s1 a) as [s2 rs]. reflexivity.
Qed.

Lemma open_run file strict gs ops : Forall untouched gs -> Forall (readable file strict) gs ->
  forall done s, Forall (inside (length gs)) ops -> open_inv file strict gs done s ->
  open_inv file strict gs (done ++ ops) (fst (lz_run s ops)) /\ snd (lz_run s ops) = map (while_open file gs) ops /\
  ls_pos (fst (lz_run s ops)) = last_pos (ls_pos s) ops.
Proof.
  intros HU HR. induction ops as [|o ops IH]; intros done s HI I; [rewrite app_nil_r; auto|]. cbn [lz_run map].
  destruct (open_step file strict gs done s o HU HR (Forall_inv HI) I) as (I1 & E & EP).
  destruct (lz_step s o) as [s1 r]. cbn [fst snd] in *.
  destruct (IH (done ++ [o]) s1 (Forall_inv_tail HI) I1) as (I2 & E2 & EP2). destruct (lz_run s1 ops) as [s2 rs]. cbn [fst snd] in *.
  rewrite <- app_assoc in I2. cbn [app] in I2. split; [exact I2|]. split; [congruence|].
  rewrite EP2, EP. destruct o; reflexivity.
Qed.

Lemma new_open file strict pos gs : open_inv file strict gs [] (ls_new file strict pos gs).
Proof.
  constructor; try reflexivity; cbn [ls_new ls_keys ls_grains].
  - induction (seq 0 (length gs)) as [|k l IH]; [reflexivity|]. cbn [filter awaited existsb negb]. f_equal. exact IH.
  - intros i. now destruct (nth_error gs i).
Qed.

Theorem lazy_open file strict pos gs ops : Forall untouched gs -> Forall (readable file strict) gs -> Forall (inside (length gs)) ops ->
  let '(s, rs) := lz_run (ls_new file strict pos gs) ops in
  rs = map (while_open file gs) ops /\ ls_pos s = last_pos pos ops /\
  (forall i g, nth_error gs i = Some g -> data_of s i = Some (if awaited ops i then Some (lz_bytes file g) else None)).
Proof.
  intros HU HR HI. destruct (open_run file strict gs ops HU HR [] (ls_new file strict pos gs) HI (new_open file strict pos gs)) as (I & E & EP).
  destruct (lz_run _ ops) as [s rs]. cbn [fst snd] in *. split; [exact E|]. split; [exact EP|]. intros i g H. unfold data_of.
  rewrite (oi_grains _ _ _ _ _ I), H. cbn [option_map app]. f_equal. apply lz_data_now. rewrite Forall_forall in HU. apply HU. eapply nth_error_In, H.
Qed.

(** ------------------------------------------------------------------ leaving the session *)

Definition spent (g : lazy) : lazy := mkLz (lz_pos g) (lz_len g) (lz_exit g) None true.

Lemma exit_cancels size t : forall s, ls_exiting s = true -> length (ls_keys s) = size -> NoDup t ->
  (forall k, In k t -> exists g, nth_error (ls_grains s) k = Some g /\ untouched g /\ lz_exit g = false) ->
  exists gs', lz_exit_loop size t s = (mkLs (ls_file s) (ls_strict s) (ls_pos s) true (ls_keys s) gs', Ok None) /\
    forall j, nth_error gs' j = if existsb (Nat.eqb j) t then option_map spent (nth_error (ls_grains s) j) else nth_error (ls_grains s) j.
Proof.
  induction t as [|k t IH]; intros s HE HS HD HG; cbn [lz_exit_loop]; rewrite HS, Nat.eqb_refl.
  - exists (ls_grains s). destruct s. cbn in *. subst. auto.
  - destruct (HG k (or_introl eq_refl)) as (g & EN & [U1 U2] & EX). unfold lz_await. rewrite EN, U1, U2. unfold lz_fetch. rewrite HE, EX.
    cbn [negb orb]. set (s1 := ls_update s (ls_pos s) (ls_keys s) k _). inversion HD as [|? ? HN HD']; subst.
    destruct (IH s1) as (gs' & E & HJ); [exact HE|reflexivity|exact HD'| |].
    + intros k' Hk. destruct (HG k' (or_intror Hk)) as (g' & EN' & H'). exists g'. split; [|exact H'].
      unfold s1, ls_update. cbn [ls_grains]. rewrite nth_set. destruct (Nat.eqb_spec k k') as [->|N]; [contradiction|exact EN'].
    + exists gs'. split; [exact E|]. intros j. rewrite HJ. unfold s1, ls_update. cbn [ls_grains existsb]. rewrite nth_set.
      destruct (Nat.eqb_spec j k) as [->|N].
      * rewrite Nat.eqb_refl, EN. cbn [orb option_map]. unfold spent. rewrite EX.
        destruct (existsb (Nat.eqb k) t) eqn:EE; [|reflexivity]. apply existsb_exists in EE as (k' & H1 & H2). apply Nat.eqb_eq in H2. subst. contradiction.
      * destruct (Nat.eqb_spec k j) as [->|N2]; [now contradiction N|]. reflexivity.
Qed.

Lemma unawaited_in (gs : list lazy) done k : In k (filter (fun k => negb (awaited done k)) (seq 0 (length gs))) <->
  (k < length gs)%nat /\ awaited done k = false.
Proof. rewrite filter_In, in_seq, negb_true_iff. intuition lia. Qed.

(** After an exit the table of grains is settled and awaiting changes nothing. *)
Lemma closed_run file gs before ops2 : forall s,
  (forall i, nth_error (ls_grains s) i = option_map (fun g => if awaited before i then got file g else spent g) (nth_error gs i)) ->
  Forall (inside (length gs)) ops2 ->
  ls_grains (fst (lz_run s ops2)) = ls_grains s /\ snd (lz_run s ops2) = map (once_closed file gs before) ops2 /\
  ls_pos (fst (lz_run s ops2)) = last_pos (ls_pos s) ops2.
Proof.
  induction ops2 as [|o ops2 IH]; intros s HG HI; [auto|]. cbn [lz_run map].
  pose proof (Forall_inv HI) as H0. destruct o as [i|p|]; [| |contradiction H0]; cbn [lz_step once_closed last_pos].
  - unfold lz_await. rewrite HG. destruct (nth_error gs i) as [g|]; cbn [option_map].
    + destruct (awaited before i); cbn [got spent lz_data lz_used];
        specialize (IH s HG (Forall_inv_tail HI)); destruct (lz_run s ops2); cbn [fst snd] in *; destruct IH as (H1 & H2 & H3); rewrite H2; auto.
    + specialize (IH s HG (Forall_inv_tail HI)); destruct (lz_run s ops2); cbn [fst snd] in *; destruct IH as (H1 & H2 & H3); rewrite H2; auto.
  - specialize (IH (ls_move s p) HG (Forall_inv_tail HI)); destruct (lz_run (ls_move s p) ops2); cbn [fst snd ls_move ls_grains ls_pos] in *; destruct IH as (H1 & H2 & H3); rewrite H2; auto.
Qed.

Theorem lazy_closed file strict pos gs ops ops2 : Forall untouched gs -> Forall (readable file strict) gs ->
  Forall (inside (length gs)) ops -> Forall (inside (length gs)) ops2 ->
  (forall i g, nth_error gs i = Some g -> awaited ops i = false -> lz_exit g = false) ->
  let '(s, rs) := lz_run (ls_new file strict pos gs) (ops ++ LExit :: ops2) in
  rs = map (while_open file gs) ops ++ Ok None :: map (once_closed file gs ops) ops2 /\
  ls_pos s = last_pos pos (ops ++ ops2) /\
  (forall i g, nth_error gs i = Some g -> data_of s i = Some (if awaited ops i then Some (lz_bytes file g) else None)).
Proof.
  intros HU HR HI HI2 HC.
  destruct (open_run file strict gs ops HU HR [] (ls_new file strict pos gs) HI (new_open file strict pos gs)) as (I & E & EP).
  rewrite lz_run_app. set (s0 := fst (lz_run (ls_new file strict pos gs) ops)) in *. rewrite E. cbn [app] in I. destruct I as [I1 I2 I3 I4 I5].
  cbn [lz_run lz_step]. set (s1 := mkLs _ _ _ _ _ _).
  destruct (exit_cancels (length (ls_keys s1)) (ls_keys s1) s1) as (gs' & EX & HJ); [reflexivity|reflexivity| | |].
  { unfold s1. cbn [ls_keys]. rewrite I4. apply NoDup_filter, seq_NoDup. }
  { intros k Hk. unfold s1 in *. cbn [ls_keys ls_grains] in *. rewrite I4 in Hk. apply unawaited_in in Hk as [Hk HA].
    destruct (nth_error gs k) as [g|] eqn:EN; [|apply nth_error_None in EN; lia]. exists g. rewrite I5, EN. cbn [option_map].
    unfold now. rewrite HA. split; [reflexivity|]. split; [|exact (HC k g EN HA)]. rewrite Forall_forall in HU. apply HU. eapply nth_error_In, EN. }
  rewrite EX. set (s2 := mkLs _ _ _ true _ gs').
  assert (forall i, nth_error (ls_grains s2) i = option_map (fun g => if awaited ops i then got file g else spent g) (nth_error gs i)) as HG.
  { intros i. unfold s2. cbn [ls_grains]. rewrite HJ. unfold s1. cbn [ls_keys ls_grains]. rewrite I5.
    destruct (nth_error gs i) as [g|] eqn:EN; cbn [option_map]; [|now destruct (existsb _ _)].
    destruct (awaited ops i) eqn:HA.
    - replace (existsb _ _) with false; [unfold now; now rewrite HA|]. symmetry. apply Bool.not_true_is_false. intros EE.
      apply existsb_exists in EE as (k & H1 & H2). apply Nat.eqb_eq in H2. subst k. rewrite I4 in H1. apply unawaited_in in H1 as [_ H1]. congruence.
    - rewrite I4, (key_listed gs ops i g EN HA). unfold now. now rewrite HA. }
  destruct (closed_run file gs ops ops2 s2 HG HI2) as (HF & E2 & EP2). destruct (lz_run s2 ops2) as [s3 rs]. cbn [fst snd] in *.
  split; [now rewrite E2|]. split.
  - rewrite EP2. unfold s2, s1. cbn [ls_pos]. rewrite EP. cbn [ls_new ls_pos]. clear. generalize pos as q. induction ops as [|[| |] ops IH]; intros q; cbn [app last_pos]; auto.
  - intros i g EN. unfold data_of. rewrite HF, HG, EN. cbn [option_map]. now destruct (awaited ops i).
Qed.

(** With load-on-exit grains left over, leaving fails after loading the first of them. *)
Theorem lazy_exit_load file strict pos gs ops k g : Forall untouched gs -> Forall (readable file strict) gs ->
  Forall (inside (length gs)) ops -> nth_error gs k = Some g -> lz_exit g = true ->
  awaited ops k = false -> (forall j, (j < k)%nat -> awaited ops j = true) ->
  let '(s, rs) := lz_run (ls_new file strict pos gs) (ops ++ [LExit]) in
  rs = map (while_open file gs) ops ++ [Err ERuntime] /\
  (forall i g, nth_error gs i = Some g ->
     data_of s i = Some (if awaited ops i || Nat.eqb i k then Some (lz_bytes file g) else None)).
Proof.
  intros HU HR HI EN HX HA HB.
  destruct (open_run file strict gs ops HU HR [] (ls_new file strict pos gs) HI (new_open file strict pos gs)) as (I & E & EP).
  rewrite lz_run_app. set (s0 := fst (lz_run (ls_new file strict pos gs) ops)) in *. rewrite E. cbn [app] in I. destruct I as [I1 I2 I3 I4 I5].
  cbn [lz_run lz_step ls_keys].
  assert (exists t, ls_keys s0 = k :: t) as (t & EK).
  { rewrite I4. pose proof (proj1 (nth_error_Some gs k) ltac:(congruence)) as HL.
    replace (length gs) with (k + S (length gs - S k))%nat by lia. rewrite seq_app, filter_app. cbn [seq filter plus]. rewrite HA. cbn [negb].
    exists (filter (fun k0 => negb (awaited ops k0)) (seq (S k) (length gs - S k))).
    replace (filter (fun k0 => negb (awaited ops k0)) (seq 0 k)) with (@nil nat); [reflexivity|]. symmetry.
    clear - HB.
    assert (forall l, (forall j, In j l -> awaited ops j = true) -> filter (fun k0 => negb (awaited ops k0)) l = []) as HF.
    { induction l as [|x l IH]; intros H; [reflexivity|]. cbn [filter]. rewrite (H x) by now left. cbn [negb]. apply IH. intros j Hj. apply H. now right. }
    apply HF. intros j Hj. apply in_seq in Hj. apply HB. lia. }
  rewrite EK. pose proof HU as HU'. rewrite Forall_forall in HU, HR. pose proof (nth_error_In _ _ EN) as HIn.
  destruct (HU g HIn) as [U1 U2].
  cbn [lz_exit_loop ls_keys]. rewrite Nat.eqb_refl. unfold lz_await. cbn [ls_grains]. rewrite I5, EN. cbn [option_map]. assert (now file ops k g = g) as EQ by (unfold now; now rewrite HA). rewrite EQ, U1, U2.
  unfold lz_fetch. rewrite HX. cbn [orb ls_keys ls_file ls_strict existsb ls_pos]. rewrite Nat.eqb_refl. cbn [orb].
  rewrite I1, I2. fold (region file (lz_pos g) (lz_len g)). fold (lz_bytes file g).
  rewrite (readable_short file strict g (HR g HIn)). cbn [filter]. rewrite Nat.eqb_refl. cbn [negb]. set (K := filter _ t).
  assert (length K <= length t)%nat as HK by (unfold K; clear; induction t as [|x t IH]; cbn [filter length]; [lia|]; destruct (negb _); cbn [length]; lia).
  set (s2 := ls_update _ _ _ _ _).
  assert (lz_exit_loop (length (k :: t)) t s2 = (s2, Err ERuntime)) as EL.
  { destruct t as [|x t']; cbn [lz_exit_loop]; unfold s2, ls_update; cbn [ls_keys];
      (replace (Nat.eqb _ _) with false by (symmetry; apply Nat.eqb_neq; cbn [length] in *; lia)); reflexivity. }
  rewrite EL. cbn [fst snd]. split; [reflexivity|]. intros i g' EN'. unfold data_of, s2, ls_update. cbn [ls_grains]. rewrite nth_set.
  destruct (Nat.eqb_spec k i) as [<-|N].
  - rewrite Nat.eqb_refl, orb_true_r, I5, EN'. cbn [option_map lz_data]. rewrite EN in EN'. now inversion EN'.
  - rewrite I5, EN'. cbn [option_map]. destruct (Nat.eqb_spec i k) as [->|N2]; [now contradiction N|]. rewrite orb_false_r.
    f_equal. apply lz_data_now. apply HU. eapply nth_error_In, EN'.
Qed.

(** Several awaits, one after the other. *)
Definition one_await (i : nat) : list cact := [CSeek i; CRead i; CBack i].
Lemma set_set {A} (l : list A) : forall i x y, set_nth i x (set_nth i y l) = set_nth i x l.
Proof. induction l as [|z l IH]; intros [|i] x y; cbn [set_nth]; try reflexivity. f_equal. apply IH. Qed.
Lemma one_alone file pos ts i t : nth_error ts i = Some t ->
  fold_left (cstep file) (one_await i) (pos, ts) = (pos, set_nth i (mkCt (ct_pos t) (ct_len t) pos (Some (region file (ct_pos t) (ct_len t)))) ts).
Proof.
  intros H. cbn [one_await fold_left cstep]. rewrite H. cbn [cstep]. rewrite nth_set, Nat.eqb_refl, H. cbn [option_map ct_pos ct_len ct_old cstep].
  rewrite !nth_set, Nat.eqb_refl, H. cbn [option_map ct_old]. rewrite set_set. reflexivity.
Qed.
Lemma serial_awaits file order : forall pos ts, (forall i, In i order -> nth_error ts i <> None) ->
  exists ts', fold_left (cstep file) (flat_map one_await order) (pos, ts) = (pos, ts') /\
    forall i, match nth_error ts i, nth_error ts' i with
              | Some t, Some t' => ct_pos t' = ct_pos t /\ ct_len t' = ct_len t /\
                                   ct_data t' = (if existsb (Nat.eqb i) order then Some (region file (ct_pos t) (ct_len t)) else ct_data t)
              | None, None => True | _, _ => False end.
Proof.
  induction order as [|k order IH]; intros pos ts H.
  - exists ts. split; [reflexivity|]. intros i. destruct (nth_error ts i); auto.
  - destruct (nth_error ts k) as [t|] eqn:K; [|destruct (H k (or_introl eq_refl) K)].
    cbn [flat_map]. rewrite fold_left_app, (one_alone file pos ts k t K).
    set (ts1 := set_nth k _ ts). destruct (IH pos ts1) as (ts' & E & P).
    { intros i I. unfold ts1. rewrite nth_set. destruct (Nat.eqb k i) eqn:X; [|apply H; right; exact I]. apply Nat.eqb_eq in X. subst i. rewrite K. discriminate. }
    exists ts'. split; [exact E|]. intros i. specialize (P i). unfold ts1 in P. rewrite nth_set in P. cbn [existsb]. rewrite (Nat.eqb_sym i k).
    destruct (Nat.eqb k i) eqn:X; cbn [orb]; [|exact P]. apply Nat.eqb_eq in X. subst i. rewrite K in P |- *. cbn [option_map] in P.
    destruct (nth_error ts' k); [|exact P]. cbn [ct_pos ct_len ct_data] in P. destruct P as (P1 & P2 & P3). split; [exact P1|]. split; [exact P2|]. rewrite P3. destruct (existsb _ order); reflexivity.
Qed.
