From Coq Require Import String Lia ZifyBool ZifyNat.
From Verif Require Import Base BaseProofs GsfPrim GsfDecode PyValue PyValueProofs Json JsonProofs PyList GrainObj Event Lists GrainSet GrainSetSpec GrainCopy GrainGsf Compare CompareSpec
  CompareProofs CompareTree CompareMain CompareTotal CompareSym CompareExample PyValue GrainObj LifeSpec.
Local Open Scope list_scope.

(** ** Dictionaries. *)
Ltac keys := apply keys_differ; vm_compute; reflexivity.
Definition keeps_dict (f : dict -> res dict) : Prop := forall d e, dict_good d -> f d = Ok e -> dict_good e.
Definition keeps_value (f : pv -> res pv) : Prop := forall v w, pv_ok v -> f v = Ok w -> pv_ok w.
Lemma as_dict_good v d : pv_ok v -> as_dict v = Ok d -> dict_good d.
Proof. destruct v; cbn [as_dict]; try discriminate. intros H E. apply Ok_eq in E. subst. exact H. Qed.
Lemma as_list_good v l : pv_ok v -> as_list v = Ok l -> Forall pv_ok l.
Proof. destruct v; cbn [as_list]; try discriminate. intros H E. apply Ok_eq in E. subst. inversion H. assumption. Qed.
Lemma list_good l : Forall pv_ok l -> pv_ok (PList l). Proof. apply ok_list. Qed.
Lemma with_key_good k f : keeps_dict f -> keeps_dict (with_key k f).
Proof.
  intros F d e H E. unfold with_key in E. apply rbind_ok in E as (v & V & E). apply rbind_ok in E as (x & X & E). apply rbind_ok in E as (y & Y & E). apply Ok_eq in E. subst e.
  apply dset_good; [|exact H]. apply (F x y); [|exact Y]. exact (as_dict_good _ _ (ditem_good _ _ _ H V) X).
Qed.
Lemma conv_good k f : keeps_value f -> keeps_dict (conv k f).
Proof.
  intros F d e H E. unfold conv in E. apply rbind_ok in E as (v & V & E). apply rbind_ok in E as (w & W & E). apply Ok_eq in E. subst e. apply dset_good; [|exact H].
  exact (F v w (ditem_good _ _ _ H V) W).
Qed.
Lemma bind_good f g : keeps_dict f -> keeps_dict g -> keeps_dict (fun d => rbind (f d) g).
Proof. intros F G d e H E. apply rbind_ok in E as (x & X & E). exact (G x e (F d x H X) E). Qed.
Lemma ddel_good k d : dict_good d -> dict_good (ddel k d).
Proof.
  intros H. inversion H as [| | | | | | | | | |? N F]; subst. constructor.
  - clear F H. induction d as [|[k' v] d IH]; cbn [ddel]; [constructor|]. cbn [map fst] in N. inversion N as [|? ? A B]; subst. destruct (zlist_eqb k k'); [exact B|]. cbn [map fst]. constructor; [|apply IH, B].
    intros I. apply A. clear - I. induction d as [|[k2 w] d IH]; cbn [ddel] in I; [exact I|]. destruct (zlist_eqb k k2); cbn [map fst In] in *; tauto.
  - clear N H. induction F as [|[k' v] d A F IH]; cbn [ddel]; [constructor|]. destruct (zlist_eqb k k'); [exact F|]. constructor; [exact A|exact IH].
Qed.
Lemma dget_good k d v : dict_good d -> dget k d = Some v -> pv_ok v. Proof. exact (dict_ok d k v). Qed.
Lemma or_none_good k d : dict_good d -> pv_ok (or_none (dget k d)).
Proof. intros H. destruct (dget k d) eqn:E; cbn [or_none]; [exact (dget_good _ _ _ H E)|constructor]. Qed.
Lemma nil_good : dict_good []. Proof. apply ok_dict; constructor. Qed.
Lemma frac_good_dict n d : pv_ok (frac_dict n d). Proof. apply ok_dict; [keys|]. repeat constructor. Qed.

(** ** The constructors. *)
Lemma defaults_good now d : dict_good d -> dict_good (default_fields now d).
Proof.
  intros H. unfold default_fields.
  repeat (apply ddefault_good; [first [apply or_none_good | apply frac_good_dict | constructor]|]); try exact H.
  all: repeat (apply ddefault_good; [first [apply or_none_good | constructor]|]); try exact H.
  all: repeat (apply ddefault_good; [first [apply or_none_good | constructor]|]); try exact H.
Qed.
Lemma id_keeps : keeps_value text_of_id.
Proof. intros v w H E. destruct v; cbn [text_of_id] in E; apply Ok_eq in E; subst; try exact H; constructor. Qed.
Lemma time_keeps : keeps_value text_of_time.
Proof. intros v w H E. destruct v; cbn [text_of_time is_text] in E; try discriminate E; apply Ok_eq in E; subst; try exact H; constructor. Qed.
Lemma frac_keeps : keeps_value dict_of_frac.
Proof. intros v w H E. destruct v; cbn [dict_of_frac] in E; apply Ok_eq in E; subst; try exact H; apply frac_good_dict. Qed.
Lemma int_keeps : keeps_value (fun v => rbind (to_int v) (fun z => Ok (PInt z))).
Proof. intros v w _ E. apply rbind_ok in E as (z & _ & E). apply Ok_eq in E. subst. constructor. Qed.
Lemma texts_good : keeps_dict text_fields.
Proof.
  unfold text_fields. repeat (apply (bind_good (conv _ _)); [apply conv_good; first [exact id_keeps|exact time_keeps|exact frac_keeps]|]). apply conv_good, frac_keeps.
Qed.
Lemma grain_meta_good now : keeps_dict (grain_meta now).
Proof.
  intros d e H E. unfold grain_meta in E. revert E. apply with_key_good.
  - intros x y X. apply texts_good, defaults_good, X.
  - apply ddefault_good; [apply nil_good|]. apply ddefault_good; [constructor|exact H].
Qed.
Lemma int_field_good k : keeps_dict (int_field k). Proof. apply conv_good, int_keeps. Qed.
Lemma components_good comps : pv_ok comps -> keeps_dict (fill_components comps).
Proof.
  intros C d e H E. unfold fill_components in E. destruct (dhas $"cog_frame" d); [|apply Ok_eq in E; subst; exact H]. revert E. apply with_key_good; [|exact H].
  intros x y X E. destruct (dget $"components" x) as [v|]; [|apply Ok_eq in E; subst; apply dset_good; auto]. apply rbind_ok in E as (n & _ & E).
  destruct (n =? 0); apply Ok_eq in E; subst; [apply dset_good; auto|exact X].
Qed.
Lemma empty_frame_good : pv_ok empty_frame.
Proof. apply ok_dict; [keys|]. repeat (apply Forall_cons; [cbn [snd]; constructor|]); try constructor. Qed.
Lemma video_fields_good : keeps_dict video_fields.
Proof.
  intros d e H E. unfold video_fields in E. revert E. apply with_key_good.
  - apply bind_good; apply int_field_good.
  - apply ddefault_good; [apply empty_frame_good|]. apply dset_good; [constructor|exact H].
Qed.
Lemma section_good_fields kind s f : keeps_dict f -> keeps_dict (section_fields kind s f).
Proof.
  intros F d e H E. unfold section_fields in E. revert E. apply with_key_good; [exact F|]. apply ddefault_good; [apply nil_good|]. apply dset_good; [constructor|exact H].
Qed.
Lemma coded_fields_good : keeps_dict coded_frame_fields.
Proof.
  intros d e H E. unfold coded_frame_fields in E. revert E. apply bind_good; [apply int_field_good|apply int_field_good|]. repeat (apply ddefault_good; [constructor|]). exact H.
Qed.
Lemma audio_fields_good : keeps_dict audio_fields.
Proof. intros d e H E. unfold audio_fields in E. revert E. apply int_field_good. repeat (apply ddefault_good; [constructor|]). exact H. Qed.
Lemma coded_audio_fields_good : keeps_dict coded_audio_fields.
Proof. intros d e H E. unfold coded_audio_fields in E. revert E. apply int_field_good. repeat (apply ddefault_good; [constructor|]). exact H. Qed.
Lemma set_offsets_good l : (forall x, l = Some x -> Forall pv_ok x) -> keeps_dict (set_offsets l).
Proof.
  intros L d e H E. unfold set_offsets in E. destruct l as [l|]; [|apply Ok_eq in E; subst; exact H]. destruct (dget $"grain" d) as [v|] eqn:G; [|apply Ok_eq in E; subst; exact H].
  apply rbind_ok in E as (g & _ & E). destruct (dhas $"cog_coded_frame" g); [|apply Ok_eq in E; subst; exact H]. revert E. apply with_key_good; [|exact H]. apply with_key_good.
  intros x y X E. apply Ok_eq in E. subst. apply dset_good; [|exact X]. apply list_good, L. reflexivity.
Qed.
(** ** JSON. *)
Lemma rebuilt_good (l : dict) : forall e, Forall (fun kv => pv_ok (snd kv)) l -> dict_good e -> dict_good (fold_left (fun e kv => dset (fst kv) (snd kv) e) l e).
Proof. induction l as [|[k v] l IH]; intros e F H; cbn [fold_left fst snd]; [exact H|]. inversion F; subst. apply IH; [assumption|]. apply dset_good; assumption. Qed.
Lemma scanned_good fuel : forall s v t, scan_once fuel s = Ok (v, t) -> pv_ok v.
Proof.
  induction fuel as [|fuel IH]; intros s v t E; [discriminate E|].
  assert (I : forall n s l t, scan_items fuel n s = Ok (l, t) -> Forall pv_ok l).
  { induction n as [|n IHn]; intros s' l t' H; [discriminate H|]. cbn [scan_items] in H. apply rbind_ok in H as ([x s1] & X & H). apply IH in X.
    destruct (ws s1) as [|c r]; [discriminate H|].
    destruct (Z.eq_dec c 44) as [->|N1]; [apply rbind_ok in H as ([l' s2] & L & H); apply IHn in L; apply Ok_eq in H; apply pair_equal_spec in H as [<- _]; constructor; assumption|].
    destruct (Z.eq_dec c 93) as [->|N2]; [apply Ok_eq in H; apply pair_equal_spec in H as [<- _]; constructor; [assumption|constructor]|].
    exfalso. destruct c as [|p|p]; try discriminate H. do 7 (try (destruct p as [p|p|]; try discriminate H; try lia)). }
  assert (P : forall n s d t, scan_pairs fuel n s = Ok (d, t) -> Forall (fun kv : str * pv => pv_ok (snd kv)) d).
  { induction n as [|n IHn]; intros s' l t' H; [discriminate H|]. cbn [scan_pairs] in H. apply rbind_ok in H as (s0 & _ & H). apply rbind_ok in H as ([k s1] & _ & H). apply rbind_ok in H as (s2 & _ & H).
    apply rbind_ok in H as ([x s3] & X & H). apply IH in X. destruct (ws s3) as [|c r]; [discriminate H|].
    destruct (Z.eq_dec c 44) as [->|N1]; [apply rbind_ok in H as ([l' s4] & L & H); apply IHn in L; apply Ok_eq in H; apply pair_equal_spec in H as [<- _]; constructor; assumption|].
    destruct (Z.eq_dec c 125) as [->|N2]; [apply Ok_eq in H; apply pair_equal_spec in H as [<- _]; constructor; [assumption|constructor]|].
    exfalso. destruct c as [|p|p]; try discriminate H. do 7 (try (destruct p as [p|p|]; try discriminate H; try lia)). }
  destruct s as [|c r]; [discriminate E|]. cbn [scan_once] in E.
  destruct (c =? 34) eqn:C1; [apply rbind_ok in E as ([x s1] & _ & E); apply Ok_eq in E; apply pair_equal_spec in E as [<- _]; constructor|].
  destruct (c =? 123) eqn:C2.
  { apply Z.eqb_eq in C2. subst c.
    assert (D : (exists s, Ok (PDict [], s) = Ok (v, t)) \/ exists s, rbind (scan_pairs fuel fuel s) (fun '(d, s) => Ok (PDict (fold_left (fun e kv => dset (fst kv) (snd kv) e) d []), s)) = Ok (v, t)).
    { change (match ws r with 125 :: s => Ok (PDict [], s) | s => rbind (scan_pairs fuel fuel s) (fun '(d, s) => Ok (PDict (fold_left (fun e kv => dset (fst kv) (snd kv) e) d []), s)) end = Ok (v, t)) in E.
      destruct (ws r) as [|c r']; [right; eexists; exact E|]. destruct (Z.eq_dec c 125) as [->|N]; [left; eexists; exact E|]. right. exists (c :: r').
      destruct c as [|p|p]; try exact E. do 7 (try (destruct p as [p|p|]; try exact E; try lia)). }
    destruct D as [[s D]|[s D]].
    - apply Ok_eq in D. apply pair_equal_spec in D as [<- _]. apply nil_good.
    - apply rbind_ok in D as ([d s1] & X & D). apply Ok_eq in D. apply pair_equal_spec in D as [<- _]. apply P in X. apply rebuilt_good; [exact X|apply nil_good]. }
  destruct (c =? 91) eqn:C3.
  { apply Z.eqb_eq in C3. subst c.
    assert (D : (exists s, Ok (PList [], s) = Ok (v, t)) \/ exists s, rbind (scan_items fuel fuel s) (fun '(l, s) => Ok (PList l, s)) = Ok (v, t)).
    { change (match ws r with 93 :: s => Ok (PList [], s) | s => rbind (scan_items fuel fuel s) (fun '(l, s) => Ok (PList l, s)) end = Ok (v, t)) in E.
      destruct (ws r) as [|c r']; [right; eexists; exact E|]. destruct (Z.eq_dec c 93) as [->|N]; [left; eexists; exact E|]. right. exists (c :: r').
      destruct c as [|p|p]; try exact E. do 7 (try (destruct p as [p|p|]; try exact E; try lia)). }
    destruct D as [[s D]|[s D]].
    - apply Ok_eq in D. apply pair_equal_spec in D as [<- _]. constructor. constructor.
    - apply rbind_ok in D as ([d s1] & X & D). apply Ok_eq in D. apply pair_equal_spec in D as [<- _]. apply I in X. apply list_good, X. }
  repeat match type of E with (if ?b then _ else _) = _ => destruct b; [apply rbind_ok in E as (s1 & _ & E); apply Ok_eq in E; apply pair_equal_spec in E as [<- _]; constructor|] end.
  apply rbind_ok in E as ([z s1] & _ & E). apply Ok_eq in E. apply pair_equal_spec in E as [<- _]. constructor.
Qed.
Lemma loads_good s v : loads s = Ok v -> pv_ok v.
Proof. unfold loads. intros E. apply rbind_ok in E as ([x t] & X & E). apply scanned_good in X. destruct (ws t); [|discriminate E]. apply Ok_eq in E. subst. exact X. Qed.
Lemma parsed_good b p : parse_payload b = Ok p -> dict_good p.
Proof.
  unfold parse_payload. intros E. apply rbind_ok in E as (s & _ & E). apply rbind_ok in E as (v & V & E). apply loads_good in V.
  destruct v as [| | | |t| | | | |l|d]; try discriminate E.
  - destruct (_ && _); discriminate E.
  - destruct (_ && _); discriminate E.
  - destruct (_ && _); [|discriminate E]. apply Ok_eq in E. subst. exact V.
Qed.
Lemma read_entry_good v w : pv_ok v -> read_entry v = Ok w -> pv_ok w.
Proof.
  intros H E. unfold read_entry in E. apply rbind_ok in E as (d & D & E). apply rbind_ok in E as (p & P & E). apply Ok_eq in E. subst w. pose proof (as_dict_good _ _ H D) as G.
  assert (B : dict_good [($"path", p)]) by (apply ok_dict; [constructor; [intros []|constructor]|constructor; [exact (ditem_good _ _ _ G P)|constructor]]).
  destruct (dget $"pre" d) eqn:E1, (dget $"post" d) eqn:E2; repeat (apply dset_good; [eauto using dget_good|]); exact B.
Qed.
Lemma read_entries_good l : Forall pv_ok l -> Forall pv_ok (fst (read_entries l)).
Proof.
  intros F. induction F as [|v l H F IH]; cbn [read_entries]; [constructor|]. destruct (read_entry v) as [w|] eqn:E; [|constructor]. destruct (read_entries l) as [r x]. cbn [fst] in *. constructor; [exact (read_entry_good v w H E)|exact IH].
Qed.
Lemma py_iter_good v l : pv_ok v -> py_iter v = Ok l -> Forall pv_ok l.
Proof.
  intros H E. destruct v as [| | | |s| | | | |m|d]; cbn [py_iter] in E; try discriminate E; apply Ok_eq in E; subst; try (repeat constructor; fail).
  - apply Forall_map. apply Forall_forall. intros c _. constructor.
  - inversion H. assumption.
  - apply Forall_map. apply Forall_forall. intros c _. constructor.
Qed.
Lemma set_payload_good b d : dict_good d -> dict_good (fst (set_payload b d)).
Proof.
  intros H. unfold set_payload. destruct (parse_payload b) as [p|e] eqn:E; [|exact H]. apply parsed_good in E.
  assert (G : dict_good (dset $"topic" (or_none (dget $"topic" p)) (dset $"type" (or_none (dget $"type" p)) d))) by (apply dset_good; [apply or_none_good, E|]; apply dset_good; [apply or_none_good, E|exact H]).
  destruct (py_iter (or_none (dget $"data" p))) as [l|e] eqn:L; [|cbn [fst]; apply dset_good; [constructor; constructor|exact G]].
  pose proof (read_entries_good l (py_iter_good _ _ (or_none_good $"data" p E) L)) as R. destruct (read_entries l) as [r x]. cbn [fst] in *. apply dset_good; [apply list_good, R|exact G].
Qed.
Lemma raising_good b d e : dict_good d -> raising (set_payload b d) = Ok e -> dict_good e.
Proof. intros H E. pose proof (set_payload_good b d H) as G. destruct (set_payload b d) as [x [err|]]; cbn [raising] in E; [discriminate E|]. apply Ok_eq in E. subst. exact G. Qed.
Lemma event_fields_good a : keeps_dict (event_fields a).
Proof.
  intros d e H E. unfold event_fields in E. revert E. apply with_key_good.
  - intros x y X E. apply rbind_ok in E as (z & Z & E). apply Ok_eq in E. subst y. repeat (apply ddefault_good; [first [constructor; constructor|constructor]|]).
    destruct a; try (apply Ok_eq in Z; subst; exact X). exact (raising_good _ _ _ X Z).
  - apply ddefault_good; [|apply dset_good; [constructor|exact H]]. apply ok_dict; [keys|]. repeat (apply Forall_cons; [cbn [snd]; repeat constructor|]). constructor.
Qed.
(** All constructors. *)
Ltac binds E := repeat match type of E with rbind _ _ = Ok _ => let x := fresh "x" in let X := fresh "X" in apply rbind_ok in E as (x & X & E) end.
Lemma obj_meta c m a : o_meta (grain_obj c m a) = m. Proof. destruct a; reflexivity. Qed.
Lemma new_good now m a o : dict_good m -> new_grain now m a = Ok o -> meta_ok o.
Proof. intros H E. unfold new_grain in E. binds E. apply Ok_eq in E. subst o. unfold meta_ok. rewrite obj_meta. exact (grain_meta_good now m _ H X). Qed.
Lemma video_good comps size now m a o : pv_ok comps -> dict_good m -> video_init comps size now m a = Ok o -> meta_ok o.
Proof.
  intros C H E. unfold video_init in E. binds E. apply Ok_eq in E. subst o. unfold meta_ok. rewrite obj_meta.
  apply (with_key_good _ _ video_fields_good _ _ (grain_meta_good now _ _ (with_key_good _ _ (components_good comps C) _ _ H X0) X1) X2).
Qed.
Lemma coded_video_good n l now m a o : (forall x, l = Some x -> Forall pv_ok x) -> dict_good m -> coded_video_init n l now m a = Ok o -> meta_ok o.
Proof.
  intros C H E. unfold coded_video_init in E. binds E. apply Ok_eq in E. subst o. unfold meta_ok. rewrite obj_meta.
  apply (with_key_good _ _ (section_good_fields _ _ _ coded_fields_good) _ _ (grain_meta_good now _ _ (set_offsets_good l C _ _ H X0) X1) X2).
Qed.
Lemma audio_good n now m a o : dict_good m -> audio_init n now m a = Ok o -> meta_ok o.
Proof.
  intros H E. unfold audio_init in E. binds E. apply Ok_eq in E. subst o. unfold meta_ok. rewrite obj_meta.
  apply (with_key_good _ _ (section_good_fields _ _ _ audio_fields_good) _ _ (grain_meta_good now _ _ H X0) X1).
Qed.
Lemma coded_audio_good n now m a o : dict_good m -> coded_audio_init n now m a = Ok o -> meta_ok o.
Proof.
  intros H E. unfold coded_audio_init in E. binds E. apply Ok_eq in E. subst o. unfold meta_ok. rewrite obj_meta.
  apply (with_key_good _ _ (section_good_fields _ _ _ coded_audio_fields_good) _ _ (grain_meta_good now _ _ H X0) X1).
Qed.
Lemma event_good now m a o : dict_good m -> event_init now m a = Ok o -> meta_ok o.
Proof.
  intros H E. unfold event_init in E. binds E. apply Ok_eq in E. subst o. unfold meta_ok. cbn [o_meta].
  apply (with_key_good _ _ (event_fields_good a) _ _ (grain_meta_good now _ _ H X) X0).
Qed.
Lemma init_good c now m a o : dict_good m -> init c now m a = Ok o -> meta_ok o.
Proof.
  intros H. destruct c; cbn [init]; [apply new_good|apply video_good|apply coded_video_good|apply audio_good|apply coded_audio_good|apply event_good]; try exact H; try (constructor; constructor). discriminate.
Qed.
Lemma factory_good now m a o : dict_good m -> GrainFactory now m a = Ok o -> meta_ok o.
Proof. intros H E. unfold GrainFactory in E. apply rbind_ok in E as (c & _ & E). exact (init_good c now m a o H E). Qed.
