(** The same for events: the text of the payload may have its keys in another order, but it has the same length. *)
From Coq Require Import String Lia ZifyBool ZifyNat Permutation.
From Verif Require Import Base BaseProofs PyValue PyValueProofs Json JsonProofs Utf8 Utf8Proofs CogEnums GrainObj EventSpec EventProofs Compare CompareSpec CompareTree CompareMain CompareTotal CompareSym CompareLaws
  GrainGsfSpec SavedSpec SavedProofs.
Local Open Scope list_scope.

Lemma text_first b d t : dict_text b d = Ok t -> exists t0, dict_text false d = Ok t0 /\ (List.length t + (if b then match d with [] => 0 | _ => 2 end else 0) = List.length t0)%nat.
Proof.
  destruct d as [|[k x] d]; intros H; [exists []; cbn in *; apply Ok_eq in H; subst; destruct b; auto|].
  cbn [dict_text] in *. fold dict_text in *. apply rbind_ok in H as (u & U & H). apply rbind_ok in H as (r & R & H). apply Ok_eq in H. subst t.
  rewrite U, R. cbn [rbind]. eexists. split; [reflexivity|]. rewrite !app_length. destruct b; cbn [comma List.length]; lia.
Qed.
Lemma text_first' b d t0 : dict_text false d = Ok t0 -> exists t, dict_text b d = Ok t /\ (List.length t + (if b then match d with [] => 0 | _ => 2 end else 0) = List.length t0)%nat.
Proof.
  destruct d as [|[k x] d]; intros H; [exists []; cbn in *; apply Ok_eq in H; subst; destruct b; auto|].
  cbn [dict_text] in *. fold dict_text in *. apply rbind_ok in H as (u & U & H). apply rbind_ok in H as (r & R & H). apply Ok_eq in H. subst t0.
  rewrite U, R. cbn [rbind]. eexists. split; [reflexivity|]. rewrite !app_length. destruct b; cbn [comma List.length]; lia.
Qed.
Lemma text_perm d d' : Permutation d d' -> forall t, dict_text false d = Ok t -> exists t', dict_text false d' = Ok t' /\ List.length t' = List.length t.
Proof.
  intros P. induction P as [|[k x] d d' P IH|[k x] [k' x'] d|d d' d'' P1 IH1 P2 IH2]; intros t H.
  - exists t. auto.
  - cbn [dict_text] in *. fold dict_text in *. apply rbind_ok in H as (u & U & H). apply rbind_ok in H as (r & R & H). apply Ok_eq in H. subst t.
    destruct (IH r R) as (r' & R' & L). rewrite U, R'. cbn [rbind]. eexists. split; [reflexivity|]. rewrite !app_length. lia.
  - cbn [dict_text] in *. fold dict_text in *. apply rbind_ok in H as (u & U & H). apply rbind_ok in H as (r & R & H). apply Ok_eq in H. subst t.
    apply rbind_ok in R as (u' & U' & R). apply rbind_ok in R as (r' & R' & R). apply Ok_eq in R. subst r.
    rewrite U, U', R'. cbn [rbind]. eexists. split; [reflexivity|]. rewrite !app_length. lia.
  - destruct (IH1 t H) as (t1 & H1 & L1). destruct (IH2 t1 H1) as (t2 & H2 & L2). exists t2. split; [exact H2|congruence].
Qed.
Lemma dumps_perm d d' t : Permutation d d' -> dumps (PDict d) = Ok t -> exists t', dumps (PDict d') = Ok t' /\ List.length t' = List.length t.
Proof.
  intros P H. rewrite dumps_dict in *. apply rbind_ok in H as (r & R & H). apply Ok_eq in H. subst t.
  destruct (text_first true d r R) as (r0 & R0 & L0). destruct (text_perm d d' P r0 R0) as (r1 & R1 & L1). destruct (text_first' true d' r1 R1) as (r2 & R2 & L2).
  rewrite R2. cbn [rbind]. eexists. split; [reflexivity|]. cbn [List.length]. rewrite !app_length. cbn [List.length].
  assert (match d with [] => 0 | _ => 2 end = match d' with [] => 0 | _ => 2 end)%nat.
  { apply Permutation_length in P. destruct d, d'; cbn in P; try lia; reflexivity. }
  lia.
Qed.
Lemma same_perm (d d' : dict) : NoDup (map fst d) -> NoDup (map fst d') -> (forall k, dget k d = dget k d') -> Permutation d d'.
Proof.
  intros N N' E. apply NoDup_Permutation; [exact (NoDup_map_inv _ _ N)|exact (NoDup_map_inv _ _ N')|].
  intros [k v]. split; intros I.
  - apply dget_in. rewrite <- E. apply in_dget; assumption.
  - apply dget_in. rewrite E. apply in_dget; assumption.
Qed.
Definition same_text (v v' : pv) : Prop := forall t, dumps v = Ok t -> exists t', dumps v' = Ok t' /\ List.length t' = List.length t.
Lemma list_same l l' : Forall2 same_text l l' -> forall b t, list_text b l = Ok t -> exists t', list_text b l' = Ok t' /\ List.length t' = List.length t.
Proof.
  intros F. induction F as [|v v' l l' V F IH]; intros b t H; [exists t; auto|].
  cbn [list_text] in *. fold list_text in *. apply rbind_ok in H as (u & U & H). apply rbind_ok in H as (r & R & H). apply Ok_eq in H. subst t.
  destruct (V u U) as (u' & U' & L). destruct (IH false r R) as (r' & R' & L'). rewrite U', R'. cbn [rbind]. eexists. split; [reflexivity|]. rewrite !app_length. lia.
Qed.
(** Two entries with the same values under the same keys. *)
Definition alike (e e' : entry) : Prop := forall k, e k = e' k.
Lemma entries_same l l' es es' : Forall2 is_entry l es -> Forall2 is_entry l' es' -> Forall2 alike es es' -> Forall2 same_text l l'.
Proof.
  intros A. revert l' es'. induction A as [|v e l es V A IH]; intros l' es' B C; inversion C as [|? e' ? es1 E C']; subst; inversion B as [|v' ? l1 ? V' B']; subst; [constructor|].
  constructor; [|exact (IH _ _ B' C')]. destruct V as (d & -> & N & D). destruct V' as (d' & -> & N' & D'). intros t T.
  apply (dumps_perm d d' t); [|exact T]. apply same_perm; auto. intros k. rewrite D, D'. apply E.
Qed.
Lemma dicts_read l es : Forall2 is_entry l es -> exists ds, map_res as_dict l = Ok ds /\ l = map PDict ds /\ Forall2 (fun d e => NoDup (map fst d) /\ forall k, dget k d = e k) ds es.
Proof.
  induction 1 as [|v e l es V A (ds & D & -> & F)]; [exists []; repeat split; constructor|]. destruct V as (d & -> & N & E).
  exists (d :: ds). cbn [map_res as_dict rbind map]. rewrite D. cbn [rbind]. repeat split. constructor; auto.
Qed.
Lemma all_dicts ds : fold_right (fun v r => rbind (as_dict v) (fun _ => r)) (Ok tt) (map PDict ds) = Ok tt.
Proof. induction ds as [|d ds IH]; [reflexivity|]. cbn [map fold_right as_dict rbind]. exact IH. Qed.

Lemma shows_reads o p : shows o p -> exists ds, in_section $"event_payload" $"type" o = Ok (p_type p) /\ in_section $"event_payload" $"topic" o = Ok (p_topic p) /\
  event_entries o = Ok (map PDict ds) /\ map_res as_dict (map PDict ds) = Ok ds /\ Forall2 (fun d e => NoDup (map fst d) /\ forall k, dget k d = e k) ds (p_entries p).
Proof.
  intros (g & d & l & G & D & T & TP & L & F). destruct (dicts_read l _ F) as (ds & R & -> & F'). exists ds.
  unfold event_entries, in_section, field, ditem. rewrite G. cbn [rbind sub]. unfold ditem. rewrite D. cbn [rbind sub]. unfold ditem. rewrite T, TP, L. cbn [rbind as_list].
  repeat split; auto.
Qed.
Lemma ascii_enc t : Forall ascii t -> utf8_enc t = t.
Proof.
  induction 1 as [|c t C F IH]; [reflexivity|]. change (utf8_enc (c :: t)) with (utf8_enc1 c ++ utf8_enc t). rewrite IH. unfold utf8_enc1.
  unfold ascii in C. replace (c <? 128) with true by lia. reflexivity.
Qed.
Lemma json_length o o' p p' b : shows o p -> shows o' p' -> p_type p = p_type p' -> p_topic p = p_topic p' -> Forall2 alike (p_entries p) (p_entries p') ->
  event_json o = Ok b -> exists b', event_json o' = Ok b' /\ zlen b' = zlen b.
Proof.
  intros S S' T TP F H. destruct (shows_reads o p S) as (ds & R1 & R2 & R3 & _ & R5). destruct (shows_reads o' p' S') as (ds' & Q1 & Q2 & Q3 & _ & Q5).
  unfold event_json in *. rewrite Q1, Q2, Q3. rewrite R1, R2, R3 in H. cbn [rbind] in *. rewrite all_dicts in *. cbn [rbind] in *. rewrite <- T, <- TP.
  apply rbind_ok in H as (s & Hs & H). apply Ok_eq in H. subst b.
  assert (X : forall (l : list dict) es, Forall2 (fun d e => NoDup (map fst d) /\ forall k, dget k d = e k) l es -> Forall2 is_entry (map PDict l) es).
  { intros l es Y. induction Y as [|d e l es [N E] Y IH]; constructor; auto. exists d. auto. }
  pose proof (entries_same _ _ _ _ (X _ _ R5) (X _ _ Q5) F) as ST.
  rewrite dumps_dict in *. apply rbind_ok in Hs as (r & R & Hs). apply Ok_eq in Hs. subst s. cbn [dict_text] in R |- *.
  apply rbind_ok in R as (t & Ht & R). apply rbind_ok in R as (r1 & R' & R). apply Ok_eq in R. subst r.
  apply rbind_ok in R' as (tp & Htp & R'). apply rbind_ok in R' as (r2 & R'' & R). apply Ok_eq in R. subst r1.
  apply rbind_ok in R'' as (l & Hl & R''). cbn [rbind] in R''. apply Ok_eq in R''. subst r2.
  rewrite dumps_list in Hl. apply rbind_ok in Hl as (lt & Hlt & Hl). apply Ok_eq in Hl. subst l.
  destruct (list_same _ _ ST true lt Hlt) as (lt' & Hlt' & LL).
  assert (W : exists s', dumps (PDict [($"type", p_type p); ($"topic", p_topic p); ($"data", PList (map PDict ds'))]) = Ok s' /\
    s' = 123 :: (comma true ++ str_text $"type" ++ [58; 32] ++ t ++ comma false ++ str_text $"topic" ++ [58; 32] ++ tp ++ comma false ++ str_text $"data" ++ [58; 32] ++ (91 :: lt' ++ [93]) ++ []) ++ [125]).
  { eexists. split; [|reflexivity]. rewrite dumps_dict. cbn [dict_text]. rewrite Ht, Htp. rewrite dumps_list, Hlt'. cbn [rbind]. reflexivity. }
  destruct W as (s' & W1 & W2). rewrite dumps_dict in W1. cbn [dict_text] in W1. rewrite W1. cbn [rbind]. eexists. split; [reflexivity|].
  assert (A' : utf8_enc s' = s') by (apply ascii_enc; apply (dumps_ascii (PDict [($"type", p_type p); ($"topic", p_topic p); ($"data", PList (map PDict ds'))])); rewrite dumps_dict; exact W1).
  rewrite A'. rewrite ascii_enc.
  - subst s'. unfold zlen. cbn [List.length]. rewrite !app_length. cbn [List.length]. rewrite !app_length. cbn [List.length]. lia.
  - apply (dumps_ascii (PDict [($"type", p_type p); ($"topic", p_topic p); ($"data", PList (map PDict ds))])). rewrite dumps_dict. cbn [dict_text]. rewrite Ht, Htp.
    rewrite dumps_list, Hlt. reflexivity.
Qed.
Lemma kept_alike es es' : Forall (fun e : entry => forall k, known k = false -> e k = None) es -> Forall2 kept es es' -> Forall2 alike es es'.
Proof.
  intros A F. induction F as [|e e' es es' K F IH]; constructor; inversion A as [|? ? N A']; subst; auto. intros k. rewrite (K k). destruct (known k) eqn:X; [reflexivity|exact (N k X)].
Qed.
Lemma forall2_nth {A B} (R : A -> B -> Prop) l m : Forall2 R l m -> forall i y, nth_error m i = Some y -> exists x, nth_error l i = Some x /\ R x y.
Proof. induction 1 as [|x y l m H F IH]; intros [|i] z E; try discriminate E; cbn [nth_error] in *; [exists x; split; congruence|exact (IH i z E)]. Qed.
Theorem saved_event psnr key opts major now o o' p :
  survives major now o o' -> kept_exactly major o -> o_class o = KEvent -> shows o p -> event_survives o o' p -> of_own_type o -> plain_options opts ->
  meta_ok o -> can_compare psnr opts o o ->
  exists r, compare_with_key psnr key opts o o' = Ok r /\ r_equal r = true.
Proof.
  intros S K CE SH (p' & SH' & (PT & PP & PE)) OT [NM NI] M [P T L Y KL KE]. pose proof (kept_alike _ _ (ke_event _ _ K CE p SH) PE) as AL.
  destruct (L o (or_introl eq_refl)) as [l Hl]. pose proof (P o (or_introl eq_refl)) as Pr. pose proof (sv_class _ _ _ _ S) as CL. rewrite CE in CL.
  assert (LB : labels o' = Ok l).
  { destruct (sv_labels _ _ _ _ S) as (l1 & l2 & A & B & F). rewrite Hl in A. apply Ok_eq in A. subst l1. rewrite B. f_equal. exact (labels_same l l2 (ke_labels _ _ K l Hl) F). }
  assert (TM : forall n, In n [$"origin_timestamp"; $"sync_timestamp"] -> exists t, getattr o n = Ok (PTime t) /\ getattr o' n = Ok (PTime t)).
  { intros n Hn. destruct (sv_times _ _ _ _ S n Hn) as (t & A & B). exists t. split; [exact A|]. rewrite B. destruct (major =? 7) eqn:E; [|reflexivity].
    apply Z.eqb_eq in E. rewrite Z.abs_eq; [reflexivity|]. exact (ke_times _ _ K E n t Hn A). }
  assert (SM : forall n, In n [$"grain_type"; $"src_id"; $"flow_id"; $"rate"; $"duration"] -> getattr o' n = getattr o n).
  { intros n Hn. apply (sv_same _ _ _ _ S). apply in_or_app. left. apply (in_rest n _ [] _ Hn); [intros []|reflexivity]. }
  destruct (shows_reads o p SH) as (ds & R1 & R2 & R3 & R4 & R5). destruct (shows_reads o' p' SH') as (ds' & Q1 & Q2 & Q3 & Q4 & Q5).
  assert (GE : forall x, o_class x = KEvent -> getattr x $"event_type" = in_section $"event_payload" $"type" x /\ getattr x $"topic" = in_section $"event_payload" $"topic" x /\
     getattr x $"length" = get_length x).
  { intros x X. unfold getattr. rewrite X. repeat split. }
  destruct (GE o CE) as (G1 & G2 & G3). destruct (GE o' CL) as (H1 & H2 & H3).
  assert (LE : exists n, getattr o $"length" = Ok (PInt n) /\ getattr o' $"length" = Ok (PInt n)).
  { destruct (Pr $"length") as [v V]; [apply in_by; reflexivity|]. rewrite G3 in *. rewrite H3. unfold get_length, get_data in *. rewrite CE in V |- *. rewrite CL.
    apply rbind_ok in V as (d & D & V). apply rbind_ok in D as (b & B & D). apply Ok_eq in D. subst d. apply Ok_eq in V. subst v.
    destruct (json_length o o' p p' b SH SH' PT PP AL B) as (b' & B' & LL). rewrite B, B'. cbn [rbind]. exists (zlen b). rewrite LL. split; reflexivity. }
  assert (E0 : py_eq (PStr (own_type (o_class o))) (PStr (own_type (o_class o))) = true) by (cbn [py_eq]; apply zlist_eqb_refl).
  assert (FA : Forall2 (fun d d' => forall k, dget k d = dget k d') ds ds').
  { clear - R5 Q5 AL. revert ds' Q5. generalize dependent (p_entries p'). induction R5 as [|d e ds es [_ D] R5 IH]; intros es' AL ds' Q5; inversion AL as [|? e' ? es1 E AL']; subst; inversion Q5 as [|d' ? ds1 ? [_ D'] Q5']; subst; [constructor|].
    constructor; [|exact (IH _ AL' _ Q5')]. intros k. rewrite D, D'. apply E. }
  assert (C : can_compare psnr opts o o').
  { constructor.
    - intros x [->| ->] n Hn; [exact (Pr n Hn)|]. destruct (zlist_eqb n $"length") eqn:E.
      + apply zlist_eqb_eq in E. subst n. destruct LE as (z & _ & Z). exists (PInt z). exact Z.
      + apply zlist_eqb_neq in E. destruct (Pr n Hn) as [v V]. exists v. rewrite SM; [exact V|]. apply (in_rest n _ _ _ Hn (not_one _ _ E)). reflexivity.
    - intros x [->| ->] n Hn; [exact (T o (or_introl eq_refl) n Hn)|]. destruct (zlist_eqb n $"creation_timestamp") eqn:E.
      + apply zlist_eqb_eq in E. subst n. exists (PTime now). exact (sv_creation _ _ _ _ S).
      + apply zlist_eqb_neq in E. destruct (TM n) as (t & _ & B); [apply (in_rest n _ _ _ Hn (not_one _ _ E)); reflexivity|]. exists (PTime t). exact B.
    - intros x [->| ->]; exists l; assumption.
    - intros t u A B _. rewrite OT in A. apply Ok_eq in A. subst t. rewrite CE.
      constructor; intros X; try (exfalso; first [discriminate (own_inj KEvent KAudio _ X eq_refl)|discriminate (own_inj KEvent KCodedAudio _ X eq_refl)|discriminate (own_inj KEvent KVideo _ X eq_refl)|discriminate (own_inj KEvent KCodedVideo _ X eq_refl)]).
      + intros x [->| ->]; (split; [eexists; first [rewrite G1; exact R1|rewrite H1; exact Q1]|]; split; [eexists; first [rewrite G2; exact R2|rewrite H2; exact Q2]|]; eexists; first [rewrite R3; cbn [rbind]; exact R4|rewrite Q3; cbn [rbind]; exact Q4]).
      + exfalso. apply X. left. reflexivity.
    - intros la lb i d e k A B. rewrite LB in B. apply (KL la lb i d e k A). congruence.
    - intros A _ la lb i d e k E1 E2 D1 D2 HK. unfold entries in E1, E2. rewrite R3 in E1. rewrite Q3 in E2. cbn [rbind] in E1, E2. rewrite R4 in E1. rewrite Q4 in E2.
      apply Ok_eq in E1. apply Ok_eq in E2. subst la lb.
      assert (EK : In k (map fst d)).
      { apply in_app_iff in HK as [HK|HK]; [exact HK|]. destruct (forall2_nth _ _ _ FA i e D2) as (d1 & D1' & ED). assert (d1 = d) by congruence. subst d1.
        destruct (dget k d) as [v|] eqn:V; [apply dget_in in V; apply (in_map fst) in V; exact V|]. rewrite ED in V. apply dget_none in V. destruct (V HK). }
      apply (KE A A ds ds i d d k); [unfold entries; rewrite R3; exact R4|unfold entries; rewrite R3; exact R4|exact D1|exact D1|apply in_app_iff; left; exact EK]. }
  destruct (proj2 (compare_total psnr key opts o o') C) as [r Hr]. exists r. split; [exact Hr|].
  assert (PO : forall x, o_class x = KEvent -> payload_ok x).
  { intros x X. assert (SO : stored_ok (mkO KEvent (o_meta x) None None)) by (intros y Hy; discriminate Hy). apply stored_payload in SO.
    intros y Hy. apply SO. unfold get_data in *. rewrite X in Hy. exact Hy. }
  apply (compare_agree psnr key opts o o' r (PO o CE) (PO o' CL) Hr).
  assert (SA : forall n, getattr o' n = getattr o n -> readable o n -> agree opts o o' n).
  { intros n E [v Hv]. right. exists v, v. split; [exact Hv|]. split; [congruence|]. apply good_refl. exact (getattr_good o n v M Hv). }
  constructor.
  - intros n Hn. apply SA; [exact (SM n Hn)|]. apply Pr. apply (in_rest n _ [] _ Hn); [intros []|reflexivity].
  - left. destruct LE as (z & Z1 & Z2). right. exists (PInt z), (PInt z). repeat split; auto. cbn [py_eq as_q]. rewrite Z.eqb_refl. reflexivity.
  - intros n Hn. destruct (TM n Hn) as (t & A & B). right. exists t, t. split; [exact A|]. split; [exact B|]. apply expected_refl, NM.
  - intros I. destruct (NI I).
  - right. exists l, l. split; [exact Hl|]. split; [exact LB|]. apply lists_refl. intros i x Hx. apply dicts_refl. pose proof (labels_good o l M Hl) as G. rewrite Forall_forall in G. auto.
  - intros t u A B _. rewrite OT in A. apply Ok_eq in A. subst t. rewrite CE.
    constructor; intros X; try (exfalso; first [discriminate (own_inj KEvent KAudio _ X eq_refl)|discriminate (own_inj KEvent KCodedAudio _ X eq_refl)|discriminate (own_inj KEvent KVideo _ X eq_refl)|discriminate (own_inj KEvent KCodedVideo _ X eq_refl)]).
    + split; [apply SA; [rewrite G1, H1, R1, Q1; congruence|eexists; rewrite G1; exact R1]|].
      split; [apply SA; [rewrite G2, H2, R2, Q2; congruence|eexists; rewrite G2; exact R2]|]. right. exists ds, ds'.
      split; [rewrite R3; cbn [rbind]; exact R4|]. split; [rewrite Q3; cbn [rbind]; exact Q4|].
      assert (DG : Forall dict_good ds) by (apply (entries_good o ds M); rewrite R3; cbn [rbind]; exact R4).
      clear - DG FA. split.
      * right. exact (forall2_length _ _ _ FA).
      * intros i Hi. right. assert (NI : exists x y, nth_error ds i = Some x /\ nth_error ds' i = Some y /\ dict_good x /\ forall k, dget k x = dget k y).
        { revert i Hi. induction FA as [|d d' ds ds' D FA IH]; intros i Hi; [cbn in Hi; lia|]. inversion DG; subst. destruct i as [|i]; [exists d, d'; cbn; auto|]. cbn [nth_error]. apply IH; auto. cbn in Hi. lia. }
        destruct NI as (x & y & X & Y & G & E). exists x, y. split; [exact X|]. split; [exact Y|]. intros k HK. right. destruct (dget k x) as [v|] eqn:V; [|rewrite <- E, V in HK; destruct HK; congruence].
        exists v, v. split; [reflexivity|]. split; [rewrite <- E; exact V|]. apply py_eq_refl. exact (dict_ok _ _ _ G V).
    + exfalso. apply X. left. reflexivity.
Qed.
