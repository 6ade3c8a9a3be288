(** What an assignment changes, and histories of assignments. *)
From Coq Require Import String Lia.
From Verif Require Import Base BaseProofs PyValue PyValueProofs JsonProofs CogEnums GrainObj GrainSet GrainSetSpec GrainSetProofs.
Local Open Scope list_scope.

(** The dictionary after a write. *)
Definition changed (k : str) (x : option pv) (d : dict) : dict := match x with Some w => dset k w d | None => if dhas k d then ddel k d else d end.
Lemma changed_same k x d : (x <> None \/ NoDup (map fst d)) -> dget k (changed k x d) = x.
Proof.
  intros N. destruct x as [w|]; cbn [changed]; [apply dget_set_same|]. destruct N as [N|N]; [congruence|]. unfold dhas. destruct (dget k d) eqn:E; [apply dget_del_same, N|exact E].
Qed.
Lemma changed_other k k' x d : k' <> k -> dget k' (changed k x d) = dget k' d.
Proof. intros N. destruct x as [w|]; cbn [changed]; [apply dget_set_other, N|]. destruct (dhas k d); [apply dget_del_other, N|reflexivity]. Qed.
Lemma ddel_keys {A} k (d : list (str * A)) : NoDup (map fst d) -> NoDup (map fst (ddel k d)).
Proof.
  induction d as [|[k' v] d IH]; intros N; [exact N|]. cbn [ddel]. destruct (zlist_eqb k k'); [exact (proj2 (proj1 (NoDup_cons_iff _ _) N))|]. cbn [map fst] in *. apply NoDup_cons_iff in N as [N M]. constructor; [|exact (IH M)].
  intros I. apply N. clear - I. induction d as [|[j w] d IH]; [exact I|]. cbn [ddel] in I. destruct (zlist_eqb k j); [right; exact I|]. destruct I as [I|I]; [left; exact I|right; exact (IH I)].
Qed.
Lemma changed_keys k x d : NoDup (map fst d) -> NoDup (map fst (changed k x d)).
Proof. intros N. destruct x; cbn [changed]; [apply dset_nodup, N|]. destruct (dhas k d); [apply ddel_keys, N|exact N]. Qed.

(** Two grains of one class that differ in one place. *)
Record differ (s : slot) (x : option pv) (o o' : gobj) : Prop := {
  df_class : o_class o' = o_class o;
  df_data : o_data o' = o_data o /\ o_wait o' = o_wait o;
  df_meta : forall k, k <> $"grain" -> dget k (o_meta o') = dget k (o_meta o);
  df_shape : shaped o';
  df_here : dget (sl_key s) (home (sl_part s) o') = x;
  df_part : forall k, part_of (o_class o) <> None -> (part_of (o_class o), k) <> (sl_part s, sl_key s) -> dget k (home (part_of (o_class o)) o') = dget k (home (part_of (o_class o)) o);
  df_grain : forall k, part_of (o_class o) <> Some k -> (None, k) <> (sl_part s, sl_key s) -> dget k (home None o') = dget k (home None o) }.
Lemma home_grain o g : dget $"grain" (o_meta o) = Some (PDict g) -> home None o = g.
Proof. intros G. unfold home. rewrite G. reflexivity. Qed.
Lemma home_part o g s d : dget $"grain" (o_meta o) = Some (PDict g) -> dget s g = Some (PDict d) -> home (Some s) o = d.
Proof. intros G D. unfold home. rewrite G, D. reflexivity. Qed.
Lemma put_differs s x o : shaped o -> place_ok (o_class o) s -> (sl_part s = None -> x <> None) -> differ s x o (put_slot s x o).
Proof.
  intros S K X. pose proof S as (g & G & P).
  (* nothing there that is to be taken away *)
  assert (E : put_slot s x o = put_home (sl_part s) (changed (sl_key s) x (home (sl_part s) o)) o \/ (x = None /\ dhas (sl_key s) (home (sl_part s) o) = false /\ put_slot s x o = o)).
  { unfold put_slot, changed. destruct x; [left; reflexivity|]. destruct (dhas _ _); [left; reflexivity|right; auto]. }
  destruct E as [E|(E1 & E & E2)].
  2:{ rewrite E2, E1. constructor; auto. unfold dhas in E. destruct (dget (sl_key s) (home (sl_part s) o)) as [w|]; [congruence|reflexivity]. }
  rewrite E. clear E. unfold place_ok in K. destruct (sl_part s) as [p|] eqn:Q.
  - destruct K as [K1 K2]. rewrite K1 in P. destruct P as (d & D & N). rewrite (home_part o g p d G D).
    destruct (put_home_facts (o_class o) o g (Some p) (changed (sl_key s) x d) eq_refl G K1) as (F1 & F2 & F3 & F4 & F5). set (o' := put_home _ _ _) in *.
    pose proof (dget_set_same p (PDict (changed (sl_key s) x d)) g) as D'. constructor; rewrite ?K1, ?Q; auto.
    + rewrite <- F1 in K1. exists (dset p (PDict (changed (sl_key s) x d)) g). split; [exact F5|]. rewrite K1. exists (changed (sl_key s) x d). split; [exact D'|apply changed_keys, N].
    + rewrite (home_part _ _ _ _ F5 D'). apply changed_same. right. exact N.
    + intros k _ M. rewrite (home_part _ _ _ _ F5 D'), (home_part _ _ _ _ G D). apply changed_other. congruence.
    + intros k M _. rewrite (home_grain _ _ F5), (home_grain _ _ G). apply dget_set_other. congruence.
  - rewrite (home_grain _ _ G). destruct (put_home_facts (o_class o) o g None (changed (sl_key s) x g) eq_refl G I) as (F1 & F2 & F3 & F4 & F5). set (o' := put_home _ _ _) in *.
    assert (PS : forall t, part_of (o_class o) = Some t -> dget t (changed (sl_key s) x g) = dget t g).
    { intros t T. apply changed_other. intros E. apply (part_not_common _ _ T). rewrite E. clear - K. revert K. cbn. tauto. }
    constructor; rewrite ?Q; auto.
    + exists (changed (sl_key s) x g). split; [exact F5|]. rewrite F1. destruct (part_of (o_class o)) as [t|] eqn:T; [|exact I]. destruct P as (d & D & N). exists d. rewrite (PS t eq_refl). auto.
    + rewrite (home_grain _ _ F5). apply changed_same. left. auto.
    + intros k M _. destruct (part_of (o_class o)) as [t|] eqn:T; [|congruence]. destruct P as (d & D & N). pose proof (PS t eq_refl) as X1. rewrite D in X1. rewrite (home_part _ _ _ _ F5 X1), (home_part _ _ _ _ G D). reflexivity.
    + intros k _ M. rewrite (home_grain _ _ F5), (home_grain _ _ G). apply changed_other. congruence.
Qed.

(** What is read elsewhere in terms of the places. *)
Lemma field_home o k : shaped o -> field k o = match dget k (home None o) with Some v => Ok v | None => Err EKey end.
Proof. intros (g & G & _). unfold field, ditem. rewrite G, (home_grain _ _ G). reflexivity. Qed.
Lemma labels_home o o' : shaped o -> shaped o' -> dget $"timelabels" (home None o') = dget $"timelabels" (home None o) -> labels o' = labels o.
Proof.
  intros (g & G & _) (g' & G' & _) E. rewrite (home_grain _ _ G), (home_grain _ _ G') in E. unfold labels, ditem. rewrite G, G'. cbn [rbind as_dict]. rewrite E. reflexivity.
Qed.
Lemma part_home o s k : shaped o -> part_of (o_class o) = Some s -> in_section s k o = match dget k (home (Some s) o) with Some v => Ok v | None => Err EKey end.
Proof.
  intros (g & G & P) K. rewrite K in P. destruct P as (d & D & _). unfold in_section, field, ditem. rewrite G. cbn [rbind sub]. unfold ditem. rewrite D. cbn [rbind sub]. unfold ditem. rewrite (home_part _ _ _ _ G D). reflexivity.
Qed.
Lemma offsets_home o o' : shaped o -> shaped o' -> o_class o = KCodedVideo -> o_class o' = KCodedVideo ->
  dget $"unit_offsets" (home (Some $"cog_coded_frame") o') = dget $"unit_offsets" (home (Some $"cog_coded_frame") o) -> offsets o' = offsets o.
Proof.
  intros (g & G & P) (g' & G' & P') C C' E. rewrite C in P. rewrite C' in P'. cbn [part_of] in P, P'. destruct P as (d & D & _). destruct P' as (d' & D' & _).
  rewrite (home_part _ _ _ _ G D), (home_part _ _ _ _ G' D') in E. unfold offsets, field, ditem. rewrite G, G'. cbn [rbind sub]. unfold ditem. rewrite D, D'. cbn [rbind as_dict]. rewrite E. reflexivity.
Qed.
Lemma differ_untouched s x o o' : shaped o -> place_ok (o_class o) s -> differ s x o o' -> untouched o o'.
Proof.
  intros S K [D1 D2 D3 D4 D5 D6 D7].
  assert (PN : forall k, sl_part s = Some k -> forall j, In j [$"components"; $"unit_offsets"; $"data"] -> j <> sl_key s).
  { intros k Q j J ->. unfold place_ok in K. rewrite Q in K. exact (proj2 K J). }
  assert (KN : forall k, ~ In k [$"grain_type"; $"source_id"; $"flow_id"; $"origin_timestamp"; $"sync_timestamp"; $"creation_timestamp"; $"rate"; $"duration"] -> (@None str, k) <> (sl_part s, sl_key s)).
  { intros k N E. unfold place_ok in K. destruct (sl_part s); [discriminate|]. injection E as ->. exact (N K). }
  assert (PP : forall p k, part_of (o_class o) = Some p -> In k [$"components"; $"unit_offsets"; $"data"] -> dget k (home (Some p) o') = dget k (home (Some p) o)).
  { intros p k Q J. rewrite Q in D6. apply (D6 k); [discriminate|]. intros E. injection E as E1 E2. symmetry in E1. apply (PN p E1 k J E2). }
  constructor; auto.
  - intros k N M. rewrite !field_home by assumption. rewrite D7; [reflexivity|congruence|exact (KN k N)].
  - apply labels_home; auto. apply D7; [|apply KN; intros H; repeat (destruct H as [H|H]; [vm_compute in H; discriminate H|]); exact H].
    intros E. apply (part_not_common _ _ E). cbn. tauto.
  - intros C. rewrite !part_home by (rewrite ?D1, ?C; auto). rewrite (PP $"cog_frame"); [reflexivity|rewrite C; reflexivity|cbn; tauto].
  - intros C. apply offsets_home; auto; [congruence|]. apply PP; [rewrite C; reflexivity|cbn; tauto].
  - intros C. unfold event_entries. rewrite !part_home by (rewrite ?D1, ?C; auto). rewrite (PP $"event_payload"); [reflexivity|rewrite C; reflexivity|cbn; tauto].
Qed.
Lemma slot_part_write c n s v x : dget n (slots c) = Some s -> sl_write s v = Ok x -> sl_part s = None -> x <> None.
Proof.
  intros H W P. assert (F : Forall (fun a => sl_part (snd a) = None -> forall v, sl_write (snd a) v <> Ok None) (slots c)).
  { unfold slots. apply Forall_app. split.
    - destruct c; cbn [class_slots]; repeat (apply Forall_cons; [discriminate|]); apply Forall_nil.
    - unfold common_slots. repeat (apply Forall_cons; [intros _ u; cbn [snd sl_write s_any]; unfold always; match goal with |- rbind ?r _ <> _ => destruct r; discriminate | _ => discriminate end|]); apply Forall_nil. }
  apply dget_in in H. intros ->. exact (proj1 (Forall_forall _ _) F _ H P v W).
Qed.

(** ** One assignment. *)
Lemma readable c n so : dget n (sorts c) = Some so -> exists s, dget n (slots c) = Some s /\ keeps_sort so s.
Proof.
  intros H. pose proof (dget_agree _ _ _ n (sorts_slots c)) as X. destruct (dget n (slots c)) as [s|] eqn:E; [|congruence]. destruct X as (so' & D & R). rewrite D in H. injection H as ->. eauto.
Qed.
Theorem assignment o n so v : shaped o -> dget n (sorts (o_class o)) = Some so -> sayable so v -> exists eff, accepts so v eff /\
  match eff with
  | Refused e => set_attr n v o = Err e
  | Reads r => exists o', set_attr n v o = Ok o' /\ shaped o' /\ untouched o o' /\
      forall m, dget m (sorts (o_class o)) <> None -> getattr o' m = if same_attr n m then r else getattr o m
  end.
Proof.
  intros S H Y. destruct (readable _ _ _ H) as (s & Hs & K). destruct (K v Y) as (eff & A & W). exists eff. split; [exact A|].
  pose proof (place_of _ _ _ Hs) as PO. rewrite (set_slot o n v s Hs (shaped_part o s S PO)). unfold write_slot. destruct eff as [e|r].
  - rewrite W. reflexivity.
  - destruct W as (x & W & R). rewrite W. cbn [rbind]. fold (put_slot s x o).
    pose proof (put_differs s x o S PO (slot_part_write _ _ _ _ _ Hs W)) as D. exists (put_slot s x o). split; [reflexivity|]. split; [exact (df_shape _ _ _ _ D)|].
    split; [exact (differ_untouched s x o _ S PO D)|]. intros m M. destruct (dget m (sorts (o_class o))) as [so'|] eqn:Hm; [|congruence]. destruct (readable _ _ _ Hm) as (s' & Hs' & _).
    pose proof (place_of _ _ _ Hs') as PO'. pose proof (shaped_part o s' S PO') as HP. rewrite (get_slot o m s' Hs' HP).
    pose proof (df_class _ _ _ _ D) as DC. assert (HP' : has_part (sl_part s') (put_slot s x o)) by (apply shaped_part; [exact (df_shape _ _ _ _ D)|rewrite DC; exact PO']).
    rewrite (get_slot (put_slot s x o) m s') by (rewrite ?DC; assumption). pose proof (pair_of _ _ _ _ _ Hs Hs') as PR. destruct (same_attr n m).
    + destruct PR as (P1 & P2 & P3). rewrite <- P1, <- P2, <- P3, (df_here _ _ _ _ D). exact R.
    + f_equal. unfold place_ok in PO'. destruct (sl_part s') as [p|].
      * destruct PO' as [E _]. rewrite <- E. apply (df_part _ _ _ _ D); [congruence|]. rewrite E. congruence.
      * apply (df_grain _ _ _ _ D); [|congruence]. intros E. apply (part_not_common _ _ E). clear - PO'. repeat (destruct PO' as [K|PO']; [rewrite <- K; cbn; tauto|]). destruct PO'.
Qed.

(** ** Histories. *)
Lemma untouched_refl o : untouched o o.
Proof. constructor; auto. Qed.
Lemma untouched_trans a b c : untouched a b -> untouched b c -> untouched a c.
Proof.
  intros [A1 A2 A3 A4 A5 A6 A7 A8] [B1 B2 B3 B4 B5 B6 B7 B8]. rewrite A1 in *. destruct A2 as [A2 A2']. destruct B2 as [B2 B2']. constructor.
  - congruence.
  - split; congruence.
  - intros k N. rewrite B3 by exact N. auto.
  - intros k N M. rewrite B4 by assumption. auto.
  - congruence.
  - intros C. rewrite B6; auto.
  - intros C. rewrite B7; auto.
  - intros C. rewrite B8; auto.
Qed.
Theorem assignments l : forall o, shaped o -> Forall (fun nv => exists so, dget (fst nv) (sorts (o_class o)) = Some so /\ sayable so (snd nv)) l ->
  exists effs o', set_all l o = (o', map (fun ne => outcome_of (snd ne)) effs) /\ Forall2 (effect_of (o_class o)) l effs /\ shaped o' /\ untouched o o' /\
    forall m, dget m (sorts (o_class o)) <> None -> getattr o' m = last_reading m effs (getattr o m).
Proof.
  induction l as [|[n v] l IH]; intros o S F.
  - exists [], o. split; [reflexivity|]. split; [constructor|]. split; [exact S|]. split; [apply untouched_refl|]. reflexivity.
  - pose proof (Forall_inv F) as (so & H & Y). cbn [fst snd] in H, Y. apply Forall_inv_tail in F. destruct (assignment o n so v S H Y) as (eff & A & W). cbn [set_all]. destruct eff as [e|r].
    + rewrite W. destruct (IH o S F) as (effs & o' & E & F2 & S' & U & R). exists ((n, Refused e) :: effs), o'. rewrite E. split; [reflexivity|]. split; [constructor; [split; [reflexivity|exists so; auto]|exact F2]|]. auto.
    + destruct W as (o1 & W & S1 & U1 & R1). rewrite W. pose proof (ut_class _ _ U1) as C1. rewrite <- C1 in F. destruct (IH o1 S1 F) as (effs & o' & E & F2 & S' & U & R). rewrite C1 in F2, R.
      exists ((n, Reads r) :: effs), o'. rewrite E. split; [reflexivity|]. split; [constructor; [split; [reflexivity|exists so; auto]|exact F2]|]. split; [exact S'|]. split; [exact (untouched_trans _ _ _ U1 U)|].
      intros m M. cbn [last_reading]. rewrite (R m M), (R1 m M). reflexivity.
Qed.
(** The payload and its length. *)
Theorem length_stays o o' : untouched o o' -> o_class o <> KEvent -> get_data o' = get_data o /\ getattr o' $"length" = getattr o $"length".
Proof.
  intros [U1 [U2 U3] _ _ _ _ _ _] N. assert (D : get_data o' = get_data o) by (unfold get_data; rewrite U1; destruct (o_class o); congruence). split; [exact D|].
  unfold getattr. rewrite U1. assert (L : dget $"length" (class_attrs (o_class o) ++ common_attrs) = Some get_length) by (destruct (o_class o); reflexivity). rewrite L. unfold get_length. rewrite D, U3. reflexivity.
Qed.
Lemma data_reads o m : dget m (sorts (o_class o)) <> None -> exists f, dget m (class_attrs (o_class o) ++ common_attrs) = Some f /\
  forall o', o_class o' = o_class o -> o_meta o' = o_meta o -> f o' = f o.
Proof.
  intros H. assert (F : Forall (fun a => exists f, dget (fst a) (class_attrs (o_class o) ++ common_attrs) = Some f /\ forall o', o_class o' = o_class o -> o_meta o' = o_meta o -> f o' = f o) (sorts (o_class o))).
  { destruct (o_class o); unfold sorts; cbn [class_sorts common_sorts app]; repeat (apply Forall_cons; [eexists; split; [reflexivity|]; intros o' _ E; unfold enum_attr, maybe, maybe_frac, in_section, field; rewrite E; reflexivity|]); apply Forall_nil. }
  destruct (dget m (sorts (o_class o))) as [so|] eqn:E; [|congruence]. apply dget_in in E. exact (proj1 (Forall_forall _ _) F _ E).
Qed.
(** Assigning the payload of anything but an event. *)
Definition given (a : darg) : option bytes := match a with ABytes b => Some b | _ => None end.
Theorem payload_assigned o a : o_class o <> KEvent -> exists o', set_data a o = Ok o' /\ o_class o' = o_class o /\ o_meta o' = o_meta o /\ get_data o' = Ok (given a) /\
  (forall b, a = ABytes b -> getattr o' $"length" = Ok (PInt (zlen b))) /\ (a = ANone -> getattr o' $"length" = Ok (PInt 0)) /\
  forall m, dget m (sorts (o_class o)) <> None -> getattr o' m = getattr o m.
Proof.
  intros N. unfold set_data. assert (X : forall d w, forall m, dget m (sorts (o_class o)) <> None -> getattr (mkO (o_class o) (o_meta o) d w) m = getattr o m).
  { intros d w m M. destruct (data_reads o m M) as (f & F & G). unfold getattr. cbn [o_class]. rewrite F. apply G; reflexivity. }
  assert (L : forall o', o_class o' = o_class o -> getattr o' $"length" = get_length o') by (intros o' E; unfold getattr; rewrite E; destruct (o_class o); reflexivity).
  exists (match a with ANone => mkO (o_class o) (o_meta o) None None | ABytes b => mkO (o_class o) (o_meta o) (Some b) None | AWait => mkO (o_class o) (o_meta o) None (Some (match o_wait o with Some n => n | None => 0 end)) end).
  split; [destruct (o_class o); try congruence; reflexivity|]. split; [destruct a; reflexivity|]. split; [destruct a; reflexivity|].
  assert (GD : forall d w, get_data (mkO (o_class o) (o_meta o) d w) = Ok d) by (intros d w; unfold get_data; cbn [o_class o_data]; destruct (o_class o); congruence).
  split; [destruct a; apply GD|]. split; [|split].
  - intros b ->. rewrite L by reflexivity. unfold get_length. rewrite GD. reflexivity.
  - intros ->. rewrite L by reflexivity. unfold get_length. rewrite GD. reflexivity.
  - destruct a; apply X.
Qed.
(** The length of an awaited payload can be said in advance, and of nothing else. *)
Theorem length_assigned o n o' : set_length n o = Ok o' <-> get_data o = Ok None /\ o_wait o <> None /\ o' = mkO (o_class o) (o_meta o) None (Some n).
Proof.
  unfold set_length. destruct (get_data o) as [d|e]; cbn [rbind]; [|split; [discriminate|intros (A & _); discriminate A]]. destruct d as [b|]; [split; [discriminate|intros (A & _); discriminate A]|].
  destruct (o_wait o) as [w|]; split.
  - intros H. apply Ok_eq in H. split; [reflexivity|]. split; [discriminate|symmetry; exact H].
  - intros (_ & _ & ->). reflexivity.
  - discriminate.
  - intros (_ & N & _). congruence.
Qed.
Theorem length_said o n o' : set_length n o = Ok o' -> getattr o' $"length" = Ok (PInt n) /\ get_data o' = Ok None /\ forall m, dget m (sorts (o_class o)) <> None -> getattr o' m = getattr o m.
Proof.
  intros H. apply length_assigned in H as (D & _ & ->). assert (N : o_class o <> KEvent). { intros E. unfold get_data in D. rewrite E in D. destruct (event_json o); discriminate D. }
  assert (G : get_data (mkO (o_class o) (o_meta o) None (Some n)) = Ok None) by (unfold get_data; cbn [o_class o_data]; destruct (o_class o); congruence).
  split; [|split; [exact G|]].
  - assert (L : getattr (mkO (o_class o) (o_meta o) None (Some n)) $"length" = get_length (mkO (o_class o) (o_meta o) None (Some n))) by (unfold getattr; cbn [o_class]; destruct (o_class o); reflexivity).
    rewrite L. unfold get_length. rewrite G. reflexivity.
  - intros m M. destruct (data_reads o m M) as (f & F & X). unfold getattr. cbn [o_class]. rewrite F. apply X; reflexivity.
Qed.

(** What is assigned to the payload of an event is read at once: nothing else can be assigned. *)
Theorem event_payload_assigned o a o' : o_class o = KEvent -> set_data a o = Ok o' -> exists b, a = ABytes b.
Proof. intros C H. unfold set_data in H. rewrite C in H. destruct a as [|b|]; [discriminate H|eauto|discriminate H]. Qed.
