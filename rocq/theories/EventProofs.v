(** The operations on event grains do what the specification says. *)
From Coq Require Import String Lia ZifyBool.
From Verif Require Import Base BaseProofs PyValue PyValueProofs PyList ListSpec PyListProofs Json JsonProofs Utf8 Utf8Proofs GrainObj Event EventSpec.
Local Open Scope list_scope.

Lemma upd_same e k v : upd e k v k = v.
Proof. unfold upd. rewrite zlist_eqb_refl. reflexivity. Qed.
Lemma upd_other e k v k' : k' <> k -> upd e k v k' = e k'.
Proof. intros N. unfold upd. destruct (zlist_eqb k' k) eqn:B; [apply zlist_eqb_eq in B; congruence|reflexivity]. Qed.
Lemma entry_put d e k v : NoDup (map fst d) -> (forall k, dget k d = e k) -> NoDup (map fst (dset k v d)) /\ forall k', dget k' (dset k v d) = upd e k (Some v) k'.
Proof.
  intros N H. split; [apply dset_nodup; exact N|]. intros k'. destruct (list_eq_dec Z.eq_dec k' k) as [->|M].
  - rewrite upd_same, dget_set_same. reflexivity.
  - rewrite upd_other by exact M. rewrite dget_set_other by exact M. apply H.
Qed.
Lemma ddel_keys {A} k (d : list (str * A)) k' : In k' (map fst (ddel k d)) -> In k' (map fst d).
Proof. induction d as [|[k0 v0] d IH]; cbn [ddel map fst]; [auto|]. destruct (zlist_eqb k k0); cbn [map fst In]; [auto|]. intros [E|I]; auto. Qed.
Lemma ddel_nodup {A} k (d : list (str * A)) : NoDup (map fst d) -> NoDup (map fst (ddel k d)).
Proof.
  induction d as [|[k0 v0] d IH]; cbn [ddel map fst]; [auto|]. intros N. apply NoDup_cons_iff in N. destruct N as [N1 N2].
  destruct (zlist_eqb k k0); [exact N2|]. cbn [map fst]. constructor; [|auto]. intros I. apply N1. exact (ddel_keys _ _ _ I).
Qed.
Lemma entry_del d e k : NoDup (map fst d) -> (forall k, dget k d = e k) -> NoDup (map fst (ddel k d)) /\ forall k', dget k' (ddel k d) = upd e k None k'.
Proof.
  intros N H. split; [apply ddel_nodup; exact N|]. intros k'. destruct (list_eq_dec Z.eq_dec k' k) as [->|M].
  - rewrite upd_same. apply dget_del_same. exact N.
  - rewrite upd_other by exact M. rewrite dget_del_other by exact M. apply H.
Qed.

(** ** Lists of entries. *)
Lemma forall2_length {A B} (R : A -> B -> Prop) l m : Forall2 R l m -> List.length l = List.length m.
Proof. induction 1; cbn [List.length]; congruence. Qed.
Lemma forall2_at {A B} (R : A -> B -> Prop) l es i a e b : Forall2 R l es -> at_index es i a e b ->
  exists a' v b', at_index l i a' v b' /\ Forall2 R a' a /\ R v e /\ Forall2 R b' b.
Proof.
  intros F [-> H]. apply Forall2_app_inv_r in F. destruct F as (a' & r & F1 & F2 & ->). inversion F2 as [|v e' b' b0 R1 R2]; subst.
  exists a', v, b'. split; [|auto]. split; [reflexivity|]. apply forall2_length in F1. apply forall2_length in R2. unfold zlen in *. lia.
Qed.
Lemma forall2_none {A B} (R : A -> B -> Prop) l es i : Forall2 R l es -> no_index es i -> no_index l i.
Proof. intros F H. apply idx_none. apply idx_none in H. apply forall2_length in F. unfold zlen in *. rewrite F. exact H. Qed.

(** ** Editing. *)
Lemma name_neq (a b : str) : zlist_eqb a b = false -> a <> b.
Proof. intros H ->. rewrite zlist_eqb_refl in H. discriminate. Qed.
Ltac names := apply name_neq; vm_compute; reflexivity.
(** The dictionary of the payload shows it. *)
Definition dict_shows (d : dict) (p : payload) : Prop :=
  exists l, dget $"type" d = Some (p_type p) /\ dget $"topic" d = Some (p_topic p) /\ dget $"data" d = Some (PList l) /\ Forall2 is_entry l (p_entries p).
Lemma shows_dict o p : shows o p <-> exists g d, dget $"grain" (o_meta o) = Some (PDict g) /\ dget $"event_payload" g = Some (PDict d) /\ dict_shows d p.
Proof.
  split.
  - intros (g & d & l & A & B & C). exists g, d. split; [exact A|]. split; [exact B|]. exists l. exact C.
  - intros (g & d & A & B & l & C). exists g, d, l. auto.
Qed.
Lemma edit_shows f o p : shows o p -> (forall d, dict_shows d p -> exists p', dict_shows (fst (f d)) p') ->
  exists g d, dget $"grain" (o_meta o) = Some (PDict g) /\ dget $"event_payload" g = Some (PDict d) /\ dict_shows d p /\
    forall p', dict_shows (fst (f d)) p' -> shows (fst (edit f o)) p' /\ same_but_payload o (fst (edit f o)) /\ snd (edit f o) = snd (f d).
Proof.
  intros H _. apply shows_dict in H. destruct H as (g & d & A & B & C). exists g, d. split; [exact A|]. split; [exact B|]. split; [exact C|].
  intros p' D. unfold edit, ditem. rewrite A. cbn [rbind as_dict]. rewrite B. cbn [rbind as_dict]. destruct (f d) as [d' x] eqn:E. cbn [fst snd] in *.
  split; [|split; [|reflexivity]].
  - apply shows_dict. exists (dset $"event_payload" (PDict d') g), d'. cbn [o_meta]. rewrite !dget_set_same. auto.
  - split; [reflexivity|]. split; [reflexivity|]. split; [reflexivity|]. split.
    + intros k N. cbn [o_meta]. apply dget_set_other. exact N.
    + intros k N. unfold field, ditem. cbn [o_meta]. rewrite dget_set_same, A. cbn [rbind sub]. unfold ditem. rewrite dget_set_other by exact N. reflexivity.
Qed.
(** Enough: the function on the dictionary does it. *)
Definition dict_does (f : dict -> dict * option err) (p : payload) (P : payload -> option err -> Prop) : Prop :=
  forall d, dict_shows d p -> exists p' x, P p' x /\ snd (f d) = x /\ dict_shows (fst (f d)) p'.
Lemma edit_does f o p P : shows o p -> dict_does f p P ->
  exists p' x o', edit f o = (o', x) /\ P p' x /\ shows o' p' /\ same_but_payload o o'.
Proof.
  intros H D. destruct (edit_shows f o p H) as (g & d & A & B & C & E).
  { intros d C. destruct (D d C) as (p' & x & _ & _ & S). eauto. }
  destruct (D d C) as (p' & x & Q & X & S). destruct (E p' S) as (S1 & S2 & S3). exists p', x, (fst (edit f o)).
  split; [rewrite <- X, <- S3; destruct (edit f o); reflexivity|]. auto.
Qed.
Lemma does_set_type v p : dict_does (fun d => (dset $"type" v d, None)) p (does (SetType v) p).
Proof.
  intros d (l & T & Tp & D & F). eexists _, None. split; [constructor|]. split; [reflexivity|]. exists l. cbn [fst p_type p_topic p_entries].
  rewrite dget_set_same, !dget_set_other by names. auto.
Qed.
Lemma does_set_topic v p : dict_does (fun d => (dset $"topic" v d, None)) p (does (SetTopic v) p).
Proof.
  intros d (l & T & Tp & D & F). eexists _, None. split; [constructor|]. split; [reflexivity|]. exists l. cbn [fst p_type p_topic p_entries].
  rewrite dget_set_same, !dget_set_other by names. auto.
Qed.
Lemma does_set_data d p l es : dict_shows d p -> Forall2 is_entry l es -> dict_shows (dset $"data" (PList l) d) (with_entries p es).
Proof. intros (l0 & T & Tp & D & F) H. exists l. cbn [with_entries p_type p_topic p_entries]. rewrite dget_set_same, !dget_set_other by names. auto. Qed.
Lemma does_set_entries l p : Forall (fun d => NoDup (map fst d)) l -> dict_does (fun d => (dset $"data" (PList (map PDict l)) d, None)) p (does (SetEntries l) p).
Proof.
  intros N d D. eexists _, None. split; [constructor|]. split; [reflexivity|]. cbn [fst]. apply does_set_data; [exact D|].
  clear - N. induction N as [|e l N1 N IH]; cbn [map]; constructor; [|exact IH]. exists e. auto.
Qed.
Lemma is_entry_new path pre post : is_entry (PDict (new_entry path pre post)) (upd (upd (upd nothing $"path" (Some path)) $"pre" (unless_none pre)) $"post" (unless_none post)).
Proof.
  exists (new_entry path pre post). split; [reflexivity|]. unfold new_entry.
  assert (H : NoDup (map fst [($"path", path)]) /\ forall k, dget k [($"path", path)] = upd nothing $"path" (Some path) k).
  { split; [constructor; [intros []|constructor]|]. intros k. unfold upd. cbn [dget]. reflexivity. }
  assert (S : forall e d k v, NoDup (map fst d) /\ (forall k, dget k d = e k) -> e k = None ->
              NoDup (map fst (match v with PNone => d | _ => dset k v d end)) /\ forall k', dget k' (match v with PNone => d | _ => dset k v d end) = upd e k (unless_none v) k').
  { intros e d k v [H1 H2] N. destruct v; cbn [unless_none]; try exact (entry_put _ _ _ _ H1 H2). split; [exact H1|]. intros k'. rewrite H2. unfold upd.
    destruct (zlist_eqb k' k) eqn:B; [apply zlist_eqb_eq in B; subst; exact N|reflexivity]. }
  apply S; [apply S; [exact H|]|]; [reflexivity|]. destruct pre; reflexivity.
Qed.
Lemma does_edit_list f p P : (forall l, Forall2 is_entry l (p_entries p) ->
    match f l with Ok l' => exists es, Forall2 is_entry l' es /\ P (with_entries p es) None | Err e => P p (Some e) end) ->
  dict_does (fun d => match rbind (rbind (ditem $"data" d) as_list) f with Ok l => (dset $"data" (PList l) d, None) | Err e => (d, Some e) end) p P.
Proof.
  intros H d D. pose proof D as (l & T & Tp & E & F). unfold ditem. rewrite E. cbn [rbind as_list]. specialize (H l F). destruct (f l) as [l'|e].
  - destruct H as (es & H1 & H2). exists (with_entries p es), None. split; [exact H2|]. split; [reflexivity|]. cbn [fst]. apply does_set_data; assumption.
  - exists p, (Some e). split; [exact H|]. split; [reflexivity|exact D].
Qed.
Lemma does_edit_entry op i f p : entry_index op = Some i ->
  (forall d e, NoDup (map fst d) -> (forall k, dget k d = e k) ->
     match f d with Ok d' => exists e', NoDup (map fst d') /\ (forall k, dget k d' = e' k) /\ on_entry op i e e' None
                  | Err x => on_entry op i e e (Some x) end) ->
  forall o, shows o p -> exists p' x o', edit_entry i f o = (o', x) /\ does op p p' x /\ shows o' p' /\ same_but_payload o o'.
Proof.
  intros I H o S. unfold edit_entry, edit_list. apply edit_does with (p := p); [exact S|]. apply does_edit_list. intros l F.
  destruct (index_cases (p_entries p) i) as [(a & e & b & X)|N].
  - destruct (forall2_at _ _ _ _ _ _ _ F X) as (a' & v & b' & Y & Fa & (d & -> & N1 & N2) & Fb). rewrite (lget_at _ _ _ _ _ Y). cbn [rbind as_dict].
    specialize (H d e N1 N2). destruct (f d) as [d'|x]; cbn [rbind].
    + destruct H as (e' & H1 & H2 & H3). rewrite (lput_at _ _ _ _ _ _ Y). exists (a ++ e' :: b). split.
      * apply Forall2_app; [exact Fa|]. constructor; [exists d'; auto|exact Fb].
      * exact (does_entry _ _ _ _ _ _ _ _ X H3).
    + destruct p as [t tp es]. pose proof (does_entry _ _ _ _ _ _ _ _ X H) as Z. destruct X as [X _]. cbn [p_entries] in X. unfold with_entries in Z. cbn [p_type p_topic] in Z. rewrite <- X in Z. exact Z.
  - rewrite (lget_none _ _ (forall2_none _ _ _ _ F N)). cbn [rbind]. exact (does_index _ _ _ I N).
Qed.

(** ** The JSON setter. *)
Lemma read_entry_ok v w : read_entry v = Ok w -> exists e, json_entry v e /\ is_entry w e.
Proof.
  unfold read_entry, ditem. destruct v as [| | | | | | | | | |d]; try discriminate. cbn [as_dict rbind]. destruct (dget $"path" d) as [path|] eqn:P; [|discriminate]. cbn [rbind]. intros H. apply Ok_eq in H. subst w.
  exists (fun k => if known k then dget k d else None). split.
  - exists d. split; [reflexivity|]. rewrite P. split; [discriminate|auto].
  - eexists. split; [reflexivity|].
    assert (N1 : $"path" <> $"pre") by names. assert (N2 : $"path" <> $"post") by names. assert (N3 : $"pre" <> $"post") by names.
    assert (K0 : NoDup (map fst [($"path", path)])) by (constructor; [intros []|constructor]).
    set (e1 := match dget $"pre" d with Some x => dset $"pre" x [($"path", path)] | None => [($"path", path)] end).
    assert (K1 : NoDup (map fst e1)) by (subst e1; destruct (dget $"pre" d); [apply dset_nodup|]; exact K0).
    assert (G1 : forall k, dget k e1 = if zlist_eqb k $"pre" then dget $"pre" d else dget k [($"path", path)]).
    { intros k. subst e1. destruct (zlist_eqb k $"pre") eqn:B.
      - apply zlist_eqb_eq in B. subst k. destruct (dget $"pre" d); [apply dget_set_same|reflexivity].
      - destruct (dget $"pre" d); [|reflexivity]. apply dget_set_other. intros ->. rewrite zlist_eqb_refl in B. discriminate. }
    split.
    + destruct (dget $"post" d); [apply dset_nodup|]; exact K1.
    + intros k. assert (G2 : dget k (match dget $"post" d with Some x => dset $"post" x e1 | None => e1 end) = if zlist_eqb k $"post" then dget $"post" d else dget k e1).
      { destruct (zlist_eqb k $"post") eqn:B.
        - apply zlist_eqb_eq in B. subst k. destruct (dget $"post" d); [apply dget_set_same|]. rewrite G1. reflexivity.
        - destruct (dget $"post" d); [|reflexivity]. apply dget_set_other. intros ->. rewrite zlist_eqb_refl in B. discriminate. }
      rewrite G2, G1. unfold known. cbn [dget]. destruct (zlist_eqb k $"post") eqn:B3; [apply zlist_eqb_eq in B3; subst k; reflexivity|].
      destruct (zlist_eqb k $"pre") eqn:B2; [apply zlist_eqb_eq in B2; subst k; reflexivity|].
      destruct (zlist_eqb k $"path") eqn:B1; [apply zlist_eqb_eq in B1; subst k; cbn [orb]; symmetry; exact P|reflexivity].
Qed.
Lemma read_entry_err v e : read_entry v = Err e -> bad_entry v e.
Proof.
  unfold read_entry, ditem. destruct v as [| | | | | | | | | |d]; cbn [as_dict rbind]; try (intros H; injection H; intros; subst; reflexivity).
  destruct (dget $"path" d) eqn:P; cbn [rbind]; [discriminate|]. intros H. injection H. intros <-. split; [exact P|reflexivity].
Qed.
Lemma read_entries_spec l r x : read_entries l = (r, x) -> exists good rest es, l = good ++ rest /\ Forall2 json_entry good es /\ Forall2 is_entry r es /\
  match x with None => rest = [] | Some e => exists w ws, rest = w :: ws /\ bad_entry w e end.
Proof.
  revert r x. induction l as [|v l IH]; intros r x; cbn [read_entries].
  - intros H. injection H. intros <- <-. exists [], [], []. repeat split; constructor.
  - destruct (read_entry v) as [w|e] eqn:E.
    + destruct (read_entries l) as [r0 x0]. intros H. injection H. intros <- <-. destruct (IH _ _ eq_refl) as (good & rest & es & -> & F1 & F2 & X).
      destruct (read_entry_ok _ _ E) as (e & J1 & J2). exists (v :: good), rest, (e :: es). split; [reflexivity|]. split; [constructor; assumption|]. split; [constructor; assumption|exact X].
    + intros H. injection H. intros <- <-. exists [], (v :: l), []. split; [reflexivity|]. split; [constructor|]. split; [constructor|]. exists v, l. split; [reflexivity|]. apply read_entry_err. exact E.
Qed.
Lemma json_entries_spec v : match py_iter v with
  | Err e => json_entries v [] (Some e)
  | Ok l => forall r x, read_entries l = (r, x) -> exists es, json_entries v es x /\ Forall2 is_entry r es
  end.
Proof.
  assert (T : forall s, read_entry (PStr s) = Err EType) by reflexivity.
  destruct v as [| | | |s| | | | |l|d]; cbn [py_iter]; try (split; reflexivity).
  - intros r x. destruct s as [|c s]; cbn [map read_entries]; [|rewrite T]; intros H; injection H; intros <- <-; (exists []; split; [split; reflexivity|constructor]).
  - intros r x. cbn [read_entries]. rewrite T. intros H; injection H; intros <- <-; (exists []; split; [split; reflexivity|constructor]).
  - intros r x. cbn [read_entries]. rewrite T. intros H; injection H; intros <- <-; (exists []; split; [split; reflexivity|constructor]).
  - intros r x H. destruct (read_entries_spec _ _ _ H) as (good & rest & es & E & F1 & F2 & X). exists es. split; [|exact F2]. exists good, rest. auto.
  - intros r x. destruct d as [|[k v] d]; cbn [map read_entries]; [|rewrite T]; intros H; injection H; intros <- <-; (exists []; split; [split; reflexivity|constructor]).
Qed.
Lemma parse_ok b p : parse_payload b = Ok p -> exists s t tp l, utf8_dec b = Some s /\ loads s = Ok (PDict p) /\ dget $"type" p = Some t /\ dget $"topic" p = Some tp /\ dget $"data" p = Some l.
Proof.
  unfold parse_payload. destruct (utf8_dec b) as [s|]; [|discriminate]. cbn [rbind]. destruct (loads s) as [v|] eqn:L; [|discriminate]. cbn [rbind].
  destruct v as [| | | |t| | | | |l|d]; try discriminate.
  - destruct (_ && _ && _); discriminate.
  - destruct (_ && _ && _); discriminate.
  - unfold dhas. destruct (dget $"type" d) eqn:A; [|discriminate]. destruct (dget $"topic" d) eqn:B; [|discriminate]. destruct (dget $"data" d) eqn:C; [|discriminate].
    cbn [andb]. intros H. apply Ok_eq in H. subst. exists s. eexists _, _, _. split; [reflexivity|]. split; [exact L|]. rewrite A, B, C. auto.
Qed.
Lemma parse_err b e p : parse_payload b = Err e -> takes b p p (Some e).
Proof.
  unfold parse_payload. destruct (utf8_dec b) as [s|] eqn:U; cbn [rbind]; [|intros H; injection H; intros <-; constructor; exact U].
  destruct (loads s) as [v|e0] eqn:L; cbn [rbind]; [|intros H; injection H; intros <-; econstructor; eassumption].
  intros H. apply (takes_other b p s v e U L).
  - destruct v as [| | | |t| | | | |l|d]; try (injection H; intros <-; auto); try (destruct (_ && _ && _) in H; [|]; try (injection H; intros <-; auto); discriminate).
  - intros d t tp l -> A B C. unfold dhas in H. rewrite A, B, C in H. discriminate.
Qed.
Lemma does_set_payload b p : dict_does (set_payload b) p (does (SetData b) p).
Proof.
  intros d D. unfold set_payload. destruct (parse_payload b) as [q|e] eqn:P.
  - destruct (parse_ok _ _ P) as (s & t & tp & l & U & L & A & B & C). rewrite A, B, C. cbn [or_none].
    pose proof (json_entries_spec l) as J. destruct (py_iter l) as [vs|e].
    + destruct (read_entries vs) as [r x]. destruct (J _ _ eq_refl) as (es & J1 & J2). exists (mkP t tp es), x. split.
      * constructor. exact (takes_payload b p s q t tp l es x U L A B C J1).
      * split; [reflexivity|]. exists r. cbn [fst p_type p_topic p_entries]. rewrite !(dget_set_other _ $"data") by names. rewrite dget_set_other by names. rewrite !dget_set_same. auto.
    + exists (mkP t tp []), (Some e). split.
      * constructor. exact (takes_payload b p s q t tp l [] (Some e) U L A B C J).
      * split; [reflexivity|]. exists []. cbn [fst p_type p_topic p_entries]. rewrite !(dget_set_other _ $"data") by names. rewrite dget_set_other by names. rewrite !dget_set_same. auto.
  - exists p, (Some e). split; [constructor; apply parse_err; exact P|]. split; [reflexivity|exact D].
Qed.

(** ** Every operation. *)
Theorem op_does op o p : op_ok op -> shows o p ->
  exists p' x o', apply_op op o = (o', x) /\ does op p p' x /\ shows o' p' /\ same_but_payload o o'.
Proof.
  intros O S. destruct op as [b|v|v|path pre post|l|i k v|i k|i v|i v|i v]; cbn [apply_op].
  - exact (edit_does _ _ _ _ S (does_set_payload b p)).
  - exact (edit_does _ _ _ _ S (does_set_type v p)).
  - exact (edit_does _ _ _ _ S (does_set_topic v p)).
  - unfold edit_list. apply edit_does with (p := p); [exact S|]. apply does_edit_list. intros l F. eexists. split; [|constructor].
    apply Forall2_app; [exact F|]. constructor; [|constructor]. apply is_entry_new.
  - exact (edit_does _ _ _ _ S (does_set_entries l p O)).
  - apply does_edit_entry; [reflexivity| |exact S]. intros d e N H. unfold put_key. eexists. destruct (entry_put d e k v N H) as [A B]. split; [exact A|]. split; [exact B|]. constructor.
  - apply does_edit_entry; [reflexivity| |exact S]. intros d e N H. unfold del_key, dhas. destruct (dget k d) as [w|] eqn:E.
    + eexists. destruct (entry_del d e k N H) as [A B]. split; [exact A|]. split; [exact B|]. apply (on_del _ _ _ w). rewrite <- H. exact E.
    + constructor. rewrite <- H. exact E.
  - apply does_edit_entry; [reflexivity| |exact S]. intros d e N H. unfold put_key. eexists. destruct (entry_put d e $"path" v N H) as [A B]. split; [exact A|]. split; [exact B|]. constructor.
  - apply does_edit_entry; [reflexivity| |exact S]. intros d e N H. unfold put_pre, put_key, del_key, dhas.
    assert (V : v = PNone \/ v <> PNone) by (destruct v; auto; right; discriminate). destruct V as [->|V].
    2: { assert (X : exists e', NoDup (map fst (dset $"pre" v d)) /\ (forall k, dget k (dset $"pre" v d) = e' k) /\ on_entry (PutPre i v) i e e' None)
           by (destruct (entry_put d e $"pre" v N H) as [A B]; eexists; split; [exact A|]; split; [exact B|]; constructor; exact V).
         destruct v; first [exact X|destruct V; reflexivity]. }
    destruct (dget $"pre" d) as [w|] eqn:E.
    + eexists. destruct (entry_del d e $"pre" N H) as [A B]. split; [exact A|]. split; [exact B|]. apply (on_pre_none _ _ w). rewrite <- H. exact E.
    + apply on_pre_missing. rewrite <- H. exact E.
  - apply does_edit_entry; [reflexivity| |exact S]. intros d e N H. unfold put_post, put_key, dhas.
    assert (V : v = PNone \/ v <> PNone) by (destruct v; auto; right; discriminate). destruct V as [->|V].
    2: { assert (X : exists e', NoDup (map fst (dset $"post" v d)) /\ (forall k, dget k (dset $"post" v d) = e' k) /\ on_entry (PutPost i v) i e e' None)
           by (destruct (entry_put d e $"post" v N H) as [A B]; eexists; split; [exact A|]; split; [exact B|]; constructor; exact V).
         destruct v; first [exact X|destruct V; reflexivity]. }
    destruct (dget $"post" d) as [w|] eqn:E.
    + eexists. destruct (entry_del d e $"post" N H) as [A B]. split; [exact A|]. split; [exact B|]. constructor.
    + exists (upd e $"post" None). split; [exact N|]. split; [|constructor]. intros k. rewrite H. unfold upd. destruct (zlist_eqb k $"post") eqn:B; [|reflexivity].
      apply zlist_eqb_eq in B. subst k. rewrite <- H. exact E.
Qed.
Lemma same_refl o : same_but_payload o o.
Proof. repeat split; auto. Qed.
Lemma same_trans a b c : same_but_payload a b -> same_but_payload b c -> same_but_payload a c.
Proof.
  intros (A1 & A2 & A3 & A4 & A5) (B1 & B2 & B3 & B4 & B5). split; [congruence|]. split; [congruence|]. split; [congruence|].
  split; intros k N; [rewrite B4, A4 by exact N|rewrite B5, A5 by exact N]; reflexivity.
Qed.
Theorem ops_do ops : forall o p, Forall op_ok ops -> shows o p ->
  exists p' xs o', apply_ops ops o = (o', xs) /\ does_all ops p p' xs /\ shows o' p' /\ same_but_payload o o'.
Proof.
  induction ops as [|op ops IH]; intros o p O S; cbn [apply_ops].
  - exists p, [], o. split; [reflexivity|]. split; [constructor|]. split; [exact S|apply same_refl].
  - destruct (op_does op o p (Forall_inv O) S) as (p1 & x & o1 & E & D & S1 & Q1). rewrite E.
    destruct (IH o1 p1 (Forall_inv_tail O) S1) as (p2 & xs & o2 & E2 & D2 & S2 & Q2). rewrite E2. exists p2, (x :: xs), o2.
    split; [reflexivity|]. split; [econstructor; eassumption|]. split; [exact S2|exact (same_trans _ _ _ Q1 Q2)].
Qed.

(** ** Reading. *)
Lemma shows_type o p : shows o p -> in_section $"event_payload" $"type" o = Ok (p_type p).
Proof. intros (g & d & l & A & B & T & Tp & D & F). unfold in_section, field, ditem. rewrite A. cbn [rbind sub]. unfold ditem. rewrite B. cbn [rbind sub]. unfold ditem. rewrite T. reflexivity. Qed.
Lemma shows_topic o p : shows o p -> in_section $"event_payload" $"topic" o = Ok (p_topic p).
Proof. intros (g & d & l & A & B & T & Tp & D & F). unfold in_section, field, ditem. rewrite A. cbn [rbind sub]. unfold ditem. rewrite B. cbn [rbind sub]. unfold ditem. rewrite Tp. reflexivity. Qed.
Lemma shows_entries o p : shows o p -> exists l, event_entries o = Ok l /\ Forall2 is_entry l (p_entries p).
Proof.
  intros (g & d & l & A & B & T & Tp & D & F). exists l. split; [|exact F]. unfold event_entries, in_section, field, ditem. rewrite A. cbn [rbind sub]. unfold ditem. rewrite B. cbn [rbind sub].
  unfold ditem. rewrite D. reflexivity.
Qed.
Lemma shows_at o p i a e b : shows o p -> at_index (p_entries p) i a e b -> exists d, entry_at i o = Ok d /\ forall k, dget k d = e k.
Proof.
  intros S X. destruct (shows_entries _ _ S) as (l & E & F). destruct (forall2_at _ _ _ _ _ _ _ F X) as (a' & v & b' & Y & _ & (d & -> & _ & N2) & _). exists d.
  unfold entry_at. rewrite E. cbn [rbind]. rewrite (lget_at _ _ _ _ _ Y). auto.
Qed.
Lemma shows_none o p i : shows o p -> no_index (p_entries p) i -> entry_at i o = Err EIndex.
Proof. intros S X. destruct (shows_entries _ _ S) as (l & E & F). unfold entry_at. rewrite E. cbn [rbind]. rewrite (lget_none _ _ (forall2_none _ _ _ _ F X)). reflexivity. Qed.
