(** The JSON of a payload read back, and payloads of new grains. *)
From Coq Require Import String Lia ZifyBool.
From Verif Require Import Base BaseProofs PyValue PyValueProofs PyList ListSpec PyListProofs Json JsonProofs Utf8 Utf8Proofs GrainObj Event EventSpec EventProofs BuildSpec BuildMain BuildProofs.
Local Open Scope list_scope.

Lemma app_inv {A} (a a' : list A) x x' b b' : List.length a = List.length a' -> a ++ x :: b = a' ++ x' :: b' -> a = a' /\ x = x' /\ b = b'.
Proof.
  revert a'. induction a as [|y a IH]; intros [|y' a']; cbn [List.length app]; intros L E; try discriminate L.
  - injection E. auto.
  - injection E. intros E1 ->. destruct (IH a') as (-> & X); [lia|exact E1|]. auto.
Qed.
Lemma at_unique {A} (l : list A) i a x b a' x' b' : at_index l i a x b -> at_index l i a' x' b' -> a = a' /\ x = x' /\ b = b'.
Proof.
  intros H H'. pose proof (idx_at _ _ _ _ _ H) as E. rewrite (idx_at _ _ _ _ _ H') in E. destruct H as [-> _], H' as [X _]. apply app_inv; [|exact X].
  unfold zlen in E. assert (Z.of_nat (List.length a') = Z.of_nat (List.length a)) by congruence. lia.
Qed.
Lemma at_replaced {A} (l : list A) i a x b y : at_index l i a x b -> at_index (a ++ y :: b) i a y b.
Proof. intros [_ H]. split; [reflexivity|exact H]. Qed.

(** ** Setting a value and reading it. *)
Lemma read_after op o p i a e b o' x e' : op_ok op -> shows o p -> at_index (p_entries p) i a e b -> entry_index op = Some i -> apply_op op o = (o', x) ->
  (forall e1 x1, on_entry op i e e1 x1 -> x1 = x /\ e1 = e') ->
  exists d, entry_at i o' = Ok d /\ (forall k, dget k d = e' k) /\ shows o' (with_entries p (a ++ e' :: b)).
Proof.
  intros O S X I H U. destruct (op_does op o p O S) as (p' & x' & o2 & E & D & S2 & _). rewrite H in E. injection E. intros <- <-.
  assert (P : p' = with_entries p (a ++ e' :: b)).
  { inversion D; subst; try discriminate I.
    - match goal with H : at_index _ ?j _ _ _, K : on_entry _ ?j _ _ _ |- _ =>
        assert (j = i) by (inversion K; subst; cbn [entry_index] in I; congruence); subst; destruct (at_unique _ _ _ _ _ _ _ _ X H) as (<- & <- & <-); destruct (U _ _ K) as [_ ->] end. reflexivity.
    - match goal with H : no_index _ ?j |- _ => assert (j = i) by congruence; subst; destruct (H _ _ _ X) end. }
  subst p'. destruct (shows_at o' (with_entries p (a ++ e' :: b)) i a e' b S2 (at_replaced _ _ _ _ _ _ X)) as (d & E1 & E2). eauto.
Qed.
Theorem set_pre o p i a e b v : shows o p -> at_index (p_entries p) i a e b -> v <> PNone ->
  exists o', apply_op (PutPre i v) o = (o', None) /\ entry_pre i o' = Ok v /\ entry_post i o' = entry_post i o /\ shows o' (with_entries p (a ++ upd e $"pre" (Some v) :: b)).
Proof.
  intros S X V. destruct (op_does (PutPre i v) o p I S) as (p' & x & o' & E & D & S2 & _).
  assert (U : forall e1 x1, on_entry (PutPre i v) i e e1 x1 -> x1 = None /\ e1 = upd e $"pre" (Some v)) by (intros e1 x1 K; inversion K; subst; auto; destruct V; reflexivity).
  assert (Z : x = None).
  { inversion D; subst; try discriminate.
    - match goal with K : on_entry _ ?j _ _ _ |- _ => inversion K; subst; try reflexivity; destruct V; reflexivity end.
    - cbn [entry_index] in *. match goal with H : Some ?a = Some ?b |- _ => injection H; intros; subst end. match goal with H : no_index _ _ |- _ => destruct (H _ _ _ X) end. }
  subst x. destruct (read_after (PutPre i v) o p i a e b o' None (upd e $"pre" (Some v)) I S X eq_refl E U) as (d & E1 & E2 & E3).
  exists o'. split; [exact E|]. destruct (shows_at o p i a e b S X) as (d0 & F1 & F2).
  unfold entry_pre, entry_post. rewrite E1, F1. cbn [rbind]. rewrite !E2, F2, upd_same, upd_other by names. auto.
Qed.
Theorem set_pre_none o p i a e b : shows o p -> at_index (p_entries p) i a e b ->
  exists o', apply_op (PutPre i PNone) o = (o', match e $"pre" with Some _ => None | None => Some EKey end) /\ entry_pre i o' = Ok PNone /\ entry_post i o' = entry_post i o /\
    entry_item i $"pre" o' = Err EKey /\ shows o' (with_entries p (a ++ (match e $"pre" with Some _ => upd e $"pre" None | None => e end) :: b)).
Proof.
  intros S X. destruct (op_does (PutPre i PNone) o p I S) as (p' & x & o' & E & D & S2 & _).
  assert (Z : x = match e $"pre" with Some _ => None | None => Some EKey end).
  { inversion D; subst; try discriminate.
    - match goal with K : on_entry _ ?j _ _ _, H : at_index _ ?j _ _ _ |- _ => inversion K; subst; try congruence; destruct (at_unique _ _ _ _ _ _ _ _ X H) as (<- & <- & <-) end.
      + match goal with Q : e $"pre" = _ |- _ => rewrite Q end. reflexivity.
      + match goal with Q : e $"pre" = _ |- _ => rewrite Q end. reflexivity.
    - cbn [entry_index] in *. match goal with H : Some ?a = Some ?b |- _ => injection H; intros; subst end. match goal with H : no_index _ _ |- _ => destruct (H _ _ _ X) end. }
  assert (U : forall e1 x1, on_entry (PutPre i PNone) i e e1 x1 -> x1 = x /\ e1 = match e $"pre" with Some _ => upd e $"pre" None | None => e end).
  { intros e1 x1 K. rewrite Z. inversion K; subst; try congruence; match goal with Q : e1 $"pre" = _ |- _ => rewrite Q | Q : e $"pre" = _ |- _ => rewrite Q end; auto. }
  destruct (read_after (PutPre i PNone) o p i a e b o' x _ I S X eq_refl E U) as (d & E1 & E2 & E3).
  exists o'. rewrite <- Z. split; [exact E|]. destruct (shows_at o p i a e b S X) as (d0 & F1 & F2).
  unfold entry_pre, entry_post, entry_item. rewrite E1, F1. cbn [rbind]. unfold ditem. rewrite !E2, F2. destruct (e $"pre") as [w|] eqn:P.
  - rewrite upd_same, upd_other by names. auto.
  - rewrite P. auto.
Qed.
Theorem set_post o p i a e b v : shows o p -> at_index (p_entries p) i a e b ->
  exists o', apply_op (PutPost i v) o = (o', None) /\ entry_post i o' = Ok v /\ entry_pre i o' = entry_pre i o /\
    entry_item i $"post" o' = match v with PNone => Err EKey | _ => Ok v end /\ shows o' (with_entries p (a ++ upd e $"post" (unless_none v) :: b)).
Proof.
  intros S X. destruct (op_does (PutPost i v) o p I S) as (p' & x & o' & E & D & S2 & _).
  assert (U : forall e1 x1, on_entry (PutPost i v) i e e1 x1 -> x1 = None /\ e1 = upd e $"post" (unless_none v)).
  { intros e1 x1 K; inversion K; subst; auto. split; [reflexivity|]. destruct v; try reflexivity. congruence. }
  assert (Z : x = None).
  { inversion D; subst; try discriminate.
    - match goal with K : on_entry _ ?j _ _ _ |- _ => inversion K; subst; reflexivity end.
    - cbn [entry_index] in *. match goal with H : Some ?a = Some ?b |- _ => injection H; intros; subst end. match goal with H : no_index _ _ |- _ => destruct (H _ _ _ X) end. }
  subst x. destruct (read_after (PutPost i v) o p i a e b o' None _ I S X eq_refl E U) as (d & E1 & E2 & E3).
  exists o'. split; [exact E|]. destruct (shows_at o p i a e b S X) as (d0 & F1 & F2).
  unfold entry_pre, entry_post, entry_item. rewrite E1, F1. cbn [rbind]. unfold ditem. rewrite !E2, F2, upd_same, upd_other by names.
  split; [destruct v; reflexivity|]. split; [reflexivity|]. split; [destruct v; reflexivity|exact E3].
Qed.

(** ** The JSON text. *)
Lemma ascii_ok t : Forall ascii t -> str_ok t.
Proof. intros H. eapply Forall_impl; [|exact H]. intros c A. unfold ascii in A. left. lia. Qed.
Lemma entry_json d e : NoDup (map fst d) -> (forall k, dget k d = e k) -> entry_json_ok e -> json_ok (PDict d).
Proof. intros N H J. constructor; [exact N|]. apply Forall_forall. intros [k v] I. cbn [fst snd]. apply J. rewrite <- H. apply in_dget; assumption. Qed.
Lemma entries_json l es : Forall2 is_entry l es -> Forall entry_json_ok es -> Forall json_ok l.
Proof.
  induction 1 as [|v e l es (d & -> & N & H) F IH]; intros J; constructor.
  - apply (entry_json d e N H). exact (Forall_inv J).
  - apply IH. exact (Forall_inv_tail J).
Qed.
Lemma entries_dicts l es : Forall2 is_entry l es -> fold_right (fun v r => rbind (as_dict v) (fun _ => r)) (Ok tt) l = Ok tt.
Proof. induction 1 as [|v e l es (d & -> & _) F IH]; [reflexivity|]. cbn [fold_right as_dict rbind]. exact IH. Qed.
(** The text of a payload. *)
Definition payload_text (b : bytes) (p : payload) : Prop :=
  exists s l, utf8_dec b = Some s /\ loads s = Ok (PDict [($"type", p_type p); ($"topic", p_topic p); ($"data", PList l)]) /\ Forall2 is_entry l (p_entries p).
Theorem data_text o p : o_class o = KEvent -> shows o p -> payload_json_ok p -> exists b, get_data o = Ok (Some b) /\ payload_text b p /\ bytes_ok b.
Proof.
  intros C S (J1 & J2 & J3). unfold get_data. rewrite C. destruct (shows_entries _ _ S) as (l & E & F).
  set (v := PDict [($"type", p_type p); ($"topic", p_topic p); ($"data", PList l)]).
  assert (V : json_ok v).
  { constructor.
    - cbn [map fst]. repeat constructor; cbn [In]; vm_compute; intuition congruence.
    - repeat constructor; cbn [fst snd]; try assumption; try (vm_compute; intuition congruence). apply (entries_json _ _ F J3). }
  destruct (loads_dumps v V) as (t & T1 & T2). exists (utf8_enc t). unfold event_json. rewrite (shows_type _ _ S), (shows_topic _ _ S), E. cbn [rbind]. rewrite (entries_dicts _ _ F). cbn [rbind].
  fold v. rewrite T1. cbn [rbind]. split; [reflexivity|]. pose proof (ascii_ok _ (dumps_ascii v t T1)) as K. split; [|apply utf8_enc_ok; exact K].
  exists t, l. split; [apply utf8_roundtrip; exact K|]. split; [exact T2|exact F].
Qed.
Lemma kept_entry v e e' : is_entry v e -> json_entry v e' -> kept e e'.
Proof. intros (d & -> & _ & H) (d' & E & _ & K). injection E. intros <-. intros k. rewrite K, H. reflexivity. Qed.
Lemma kept_entries l es es' : Forall2 is_entry l es -> Forall2 json_entry l es' -> Forall2 kept es es'.
Proof.
  intros F. revert es'. induction F as [|v e l es H F IH]; intros es' G; inversion G; subst; constructor; [|auto]. eapply kept_entry; eassumption.
Qed.
Theorem text_read b p o0 p0 : payload_text b p -> Forall (fun e : entry => e $"path" <> None) (p_entries p) -> shows o0 p0 ->
  exists o' p', apply_op (SetData b) o0 = (o', None) /\ shows o' p' /\ same_payload p p' /\ same_but_payload o0 o'.
Proof.
  intros (s & l & U & L & F) N S. destruct (op_does (SetData b) o0 p0 I S) as (p' & x & o' & E & D & S2 & Q).
  assert (T : takes b p0 p' x) by (inversion D; subst; [assumption|match goal with K : on_entry _ _ _ _ _ |- _ => inversion K end|discriminate]).
  assert (X : x = None /\ same_payload p p').
  { inversion T as [H1|s0 e H1 H2|s0 v e H1 H2 H3 H4|s0 d t tp v es x0 H1 H2 H3 H4 H5 H6]; subst.
    - congruence.
    - assert (s0 = s) by congruence. subst. rewrite L in H2. discriminate.
    - assert (s0 = s) by congruence. subst. rewrite L in H2. apply Ok_eq in H2. subst v. exfalso. eapply H4; [reflexivity|reflexivity|reflexivity|reflexivity].
    - assert (s0 = s) by congruence. subst. rewrite L in H2. apply Ok_eq in H2. injection H2. intros <-. clear H2.
      assert (t = p_type p) by (change (Some (p_type p) = Some t) in H3; congruence). assert (tp = p_topic p) by (change (Some (p_topic p) = Some tp) in H4; congruence).
      assert (v = PList l) by (change (Some (PList l) = Some v) in H5; congruence). subst. destruct H6 as (good & rest & -> & G & R).
      assert (rest = []).
      { destruct x as [e|]; [|exact R]. destruct R as (w & ws & -> & B). exfalso. apply Forall2_app_inv_l in F. destruct F as (es1 & es2 & F1 & F2 & E2). inversion F2 as [|w' e' ws' es' (d & -> & _ & H) _]; subst.
        rewrite E2 in N. apply Forall_app in N. destruct N as [_ N]. apply Forall_inv in N. cbn [bad_entry] in B. rewrite H in B. destruct B as [B _]. congruence. }
      subst rest. rewrite app_nil_r in F. split.
      + destruct x as [e|]; [|reflexivity]. destruct R as (w & ws & R & _). discriminate R.
      + split; [reflexivity|]. split; [reflexivity|]. exact (kept_entries _ _ _ F G). }
  destruct X as [-> X]. exists o', p'. auto.
Qed.

(** ** New grains. *)
Lemma dset_default {A} k (v w : A) d : dset k v (ddefault k w d) = dset k v d.
Proof.
  unfold ddefault, dhas. destruct (dget k d) eqn:E; [reflexivity|]. induction d as [|[k0 v0] d IH]; cbn [dset].
  - rewrite zlist_eqb_refl. reflexivity.
  - cbn [dget] in E. destruct (zlist_eqb k k0) eqn:B; [discriminate|]. cbn [dset]. rewrite B, IH by exact E. reflexivity.
Qed.
Lemma dset_past {A} k k' (v w u : A) d : k <> k' -> dget k d = Some u -> dset k v (dset k' w d) = dset k' w (dset k v d).
Proof.
  intros N. induction d as [|[k0 v0] d IH]; cbn [dget dset]; [discriminate|]. intros H. destruct (zlist_eqb k' k0) eqn:B', (zlist_eqb k k0) eqn:B; cbn [dset]; rewrite ?B, ?B'; try reflexivity.
  - apply zlist_eqb_eq in B, B'. congruence.
  - rewrite IH by exact H. reflexivity.
Qed.
Lemma default_past {A} k k' (v w u : A) d : k <> k' -> dget k d = Some u -> dset k v (ddefault k' w d) = ddefault k' w (dset k v d).
Proof.
  intros N H. unfold ddefault, dhas. rewrite dget_set_other by (intros X; apply N; congruence). destruct (dget k' d); [reflexivity|]. eapply dset_past; eassumption.
Qed.
Lemma payload_order d t tp v : dset $"data" v (dset $"topic" tp (dset $"type" t (ddefault $"data" (PList []) (ddefault $"topic" (PStr []) (ddefault $"type" (PStr []) d))))) =
  dset $"data" v (dset $"topic" tp (dset $"type" t d)).
Proof.
  assert (N1 : $"type" <> $"data") by names. assert (N2 : $"type" <> $"topic") by names. assert (N3 : $"topic" <> $"data") by names.
  erewrite (default_past $"type" $"data") by (try exact N1; rewrite dget_default_other by exact N2; apply dget_default_same).
  erewrite (default_past $"type" $"topic") by (try exact N2; apply dget_default_same).
  rewrite (dset_default $"type"). erewrite (default_past $"topic" $"data") by (try exact N3; apply dget_default_same). rewrite !dset_default. reflexivity.
Qed.
Lemma payload_bytes b d : rbind (raising (set_payload b d)) (fun d => Ok (ddefault $"data" (PList []) (ddefault $"topic" (PStr []) (ddefault $"type" (PStr []) d)))) =
  raising (set_payload b (ddefault $"data" (PList []) (ddefault $"topic" (PStr []) (ddefault $"type" (PStr []) d)))).
Proof.
  unfold set_payload. destruct (parse_payload b) as [q|e]; [|reflexivity].
  set (t := or_none (dget $"type" q)). set (tp := or_none (dget $"topic" q)).
  assert (F : forall v, ddefault $"data" (PList []) (ddefault $"topic" (PStr []) (ddefault $"type" (PStr []) (dset $"data" v (dset $"topic" tp (dset $"type" t d))))) = dset $"data" v (dset $"topic" tp (dset $"type" t d))).
  { intros v. erewrite (ddefault_same $"type") by (rewrite !dget_set_other by names; apply dget_set_same).
    erewrite (ddefault_same $"topic") by (rewrite !dget_set_other by names; apply dget_set_same). erewrite (ddefault_same $"data") by apply dget_set_same. reflexivity. }
  destruct (py_iter (or_none (dget $"data" q))) as [l|e]; [|reflexivity]. destruct (read_entries l) as [r x]. rewrite payload_order. destruct x as [e|]; cbn [raising rbind]; [reflexivity|]. rewrite F. reflexivity.
Qed.
(** Constructing with a text is constructing and then setting it. *)
Theorem construct_bytes now m b : init KEvent now m (ABytes b) = rbind (init KEvent now m ANone) (fun o => raising (apply_op (SetData b) o)).
Proof.
  cbn [init]. unfold event_init. destruct (grain_meta now m) as [m1|e]; [|reflexivity]. cbn [rbind]. unfold with_key at 1 2. destruct (ditem $"grain" m1) as [v|e] eqn:E; [|reflexivity]. cbn [rbind].
  destruct (as_dict v) as [g|e]; [|reflexivity]. cbn [rbind]. unfold event_fields at 1 2. unfold with_key.
  set (g1 := ddefault _ _ _). destruct (ditem $"event_payload" g1) as [w|e] eqn:E1; [|reflexivity]. cbn [rbind]. destruct (as_dict w) as [d|e]; [|reflexivity]. cbn [rbind].
  rewrite payload_bytes. set (d1 := ddefault $"data" _ _). cbn [apply_op]. unfold edit. cbn [o_meta o_class o_data o_wait]. unfold ditem. rewrite dget_set_same. cbn [rbind as_dict]. rewrite dget_set_same. cbn [rbind as_dict].
  destruct (set_payload b d1) as [d2 [e|]]; cbn [raising rbind]; [reflexivity|]. rewrite !BuildProofs.dset_twice. reflexivity.
Qed.
Theorem new_event now k kind topic o : kw_event now k kind topic ANone = Ok o -> o_class o = KEvent /\ shows o (mkP (PStr kind) (PStr topic) []).
Proof.
  intros H. destruct (init_built KEvent now _ ANone o I H) as [[_ G _ _ P] E]. split; [rewrite E; reflexivity|]. destruct P as (f & A & B); [discriminate|].
  apply shows_dict. exists (fields (o_meta o)), f. split; [apply fields_dict_some; exact G|]. split; [exact A|]. exists []. rewrite !B. repeat split; constructor.
Qed.
(** From metadata. *)
Theorem built_event now m o f l es : init KEvent now m ANone = Ok o -> dget $"event_payload" (fields m) = Some (PDict f) -> dget $"data" f = Some (PList l) -> Forall2 is_entry l es ->
  o_class o = KEvent /\ shows o (mkP (given f $"type" (PStr [])) (given f $"topic" (PStr [])) es).
Proof.
  intros H F D L. destruct (init_built KEvent now _ ANone o I H) as [[_ G _ _ P] E]. split; [rewrite E; reflexivity|]. destruct P as (f' & A & B); [discriminate|].
  apply shows_dict. exists (fields (o_meta o)), f'. split; [apply fields_dict_some; exact G|]. split; [exact A|]. exists l. rewrite !B. unfold part_after, given.
  change (part_name KEvent) with $"event_payload". rewrite F, D. cbn [p_type p_topic p_entries]. split; [destruct (dget $"type" f); reflexivity|]. split; [destruct (dget $"topic" f); reflexivity|]. split; [reflexivity|exact L].
Qed.
Lemma read_all o p : shows o p -> in_section $"event_payload" $"type" o = Ok (p_type p) /\ in_section $"event_payload" $"topic" o = Ok (p_topic p) /\
  entry_count o = Ok (zlen (p_entries p)).
Proof.
  intros S. split; [exact (shows_type _ _ S)|]. split; [exact (shows_topic _ _ S)|]. destruct (shows_entries _ _ S) as (l & E & F). unfold entry_count. rewrite E. cbn [rbind].
  unfold zlen. rewrite (forall2_length _ _ _ F). reflexivity.
Qed.
Lemma read_one o p i a e b : shows o p -> at_index (p_entries p) i a e b ->
  (forall k, entry_item i k o = match e k with Some v => Ok v | None => Err EKey end) /\ entry_pre i o = Ok (or_none (e $"pre")) /\ entry_post i o = Ok (or_none (e $"post")).
Proof.
  intros S X. destruct (shows_at _ _ _ _ _ _ S X) as (d & E & H). unfold entry_item, entry_pre, entry_post, ditem. rewrite E. cbn [rbind]. rewrite !H. split; [|auto]. intros k. rewrite H. reflexivity.
Qed.
Lemma read_none o p i k : shows o p -> no_index (p_entries p) i -> entry_item i k o = Err EIndex /\ entry_pre i o = Err EIndex /\ entry_post i o = Err EIndex.
Proof. intros S X. unfold entry_item, entry_pre, entry_post. rewrite (shows_none _ _ _ S X). auto. Qed.
