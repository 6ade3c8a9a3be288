(** Events written and read. *)
From Coq Require Import String Lia ZifyBool ZifyNat.
From Verif Require Import Base BaseProofs Utf8 Utf8Proofs GsfPrim GsfPrimProofs GsfDecode CogEnums GsfEncode GsfSpec GsfFileSpec PyValue PyValueProofs Json JsonProofs GrainObj BuildKw Event EventSpec EventProofs EventMain GrainGsf GrainGsfSpec GrainGsfMade GrainGsfRead GrainGsfMain.
Local Open Scope list_scope.

(** ** The entries. *)
Record entry_read (v w : pv) (e : entry) : Prop := {
  er_read : read_entry v = Ok w; er_again : read_entry w = Ok w;
  er_is : exists e', is_entry w e' /\ kept e e';
  er_json : json_ok v -> json_ok w }.
Lemma json_item d k x : json_ok (PDict d) -> dget k d = Some x -> Forall char_ok k /\ json_ok x.
Proof.
  intros J E. inversion J as [| | | | |d' N F]; subst. apply dget_in in E. rewrite Forall_forall in F. exact (F _ E).
Qed.
Lemma entry_back v e : is_entry v e -> e $"path" <> None -> exists w, entry_read v w e.
Proof.
  intros (d & -> & N & H) P. rewrite <- H in P. destruct (dget $"path" d) as [p|] eqn:Ep; [|congruence].
  assert (K : forall k, known k = true -> k = $"path" \/ k = $"pre" \/ k = $"post").
  { unfold known. intros k X. apply Bool.orb_prop in X as [X|X]; [apply Bool.orb_prop in X as [X|X]|]; apply zlist_eqb_eq in X; auto. }
  assert (K' : forall k, known k = false -> zlist_eqb k $"path" = false /\ zlist_eqb k $"pre" = false /\ zlist_eqb k $"post" = false).
  { unfold known. intros k X. apply Bool.orb_false_elim in X as [X X3]. apply Bool.orb_false_elim in X as [X1 X2]. auto. }
  set (w := [($"path", p)] ++ opt_entry $"pre" (fun x => x) (dget $"pre" d) ++ opt_entry $"post" (fun x => x) (dget $"post" d)).
  assert (W : forall k, dget k w = if known k then e k else None).
  { intros k. destruct (known k) eqn:X.
    - rewrite <- H. destruct (K k X) as [-> | [-> | ->]]; [rewrite Ep; reflexivity|unfold w; destruct (dget $"pre" d), (dget $"post" d); reflexivity..].
    - destruct (K' k X) as (X1 & X2 & X3). unfold w. destruct (dget $"pre" d), (dget $"post" d); cbn [app opt_entry dget]; rewrite ?X1, ?X2, ?X3; reflexivity. }
  exists (PDict w). constructor.
  - unfold read_entry. cbn [as_dict rbind]. unfold ditem. rewrite Ep. cbn [rbind]. unfold w. destruct (dget $"pre" d), (dget $"post" d); reflexivity.
  - unfold w. destruct (dget $"pre" d), (dget $"post" d); reflexivity.
  - exists (fun k => dget k w). split.
    + exists w. split; [reflexivity|]. split; [|reflexivity]. unfold w. destruct (dget $"pre" d), (dget $"post" d); cbn [app opt_entry map fst]; repeat constructor; cbn [In]; vm_compute; intuition congruence.
    + exact W.
  - intros J. apply (entry_json w (fun k => dget k w)); [|reflexivity|].
    + unfold w. destruct (dget $"pre" d), (dget $"post" d); cbn [app opt_entry map fst]; repeat constructor; cbn [In]; vm_compute; intuition congruence.
    + intros k v X. rewrite W in X. destruct (known k); [|discriminate]. rewrite <- H in X. exact (json_item _ _ _ J X).
Qed.
Lemma entries_back l es : Forall2 is_entry l es -> Forall (fun e : entry => e $"path" <> None) es ->
  exists ws, read_entries l = (ws, None) /\ read_entries ws = (ws, None) /\ (exists es', Forall2 is_entry ws es' /\ Forall2 kept es es') /\ (Forall json_ok l -> Forall json_ok ws).
Proof.
  induction 1 as [|v e l es H _ IH]; intros P.
  - exists []. split; [reflexivity|]. split; [reflexivity|]. split; [exists []; split; constructor|auto].
  - destruct (IH (Forall_inv_tail P)) as (ws & A & B & (es' & C1 & C2) & D). destruct (entry_back v e H (Forall_inv P)) as [w [R1 R2 (e' & R3 & R4) R5]].
    exists (w :: ws). cbn [read_entries]. rewrite R1, A, R2, B. split; [reflexivity|]. split; [reflexivity|]. split.
    + exists (e' :: es'). split; constructor; assumption.
    + intros F. constructor; [apply R5; exact (Forall_inv F)|apply D; exact (Forall_inv_tail F)].
Qed.

(** ** The object made of a text. *)
Definition payload_pv (t tp : pv) (l : list pv) : pv := PDict [($"type", t); ($"topic", tp); ($"data", PList l)].
Lemma made_event_empty now s f t y r d tils :
  GrainFactory now (meta_dict (mkMeta s f t y r d tils TEvent None None None None)) ANone = Ok (made_obj KEvent now (mkMeta s f t y r d tils TEvent None None None None) empty_payload None None).
Proof. destruct tils; vm_compute; reflexivity. Qed.
Lemma factory_event now s f t y r d tils a :
  GrainFactory now (meta_dict (mkMeta s f t y r d tils TEvent None None None None)) a = init KEvent now (meta_dict (mkMeta s f t y r d tils TEvent None None None None)) a.
Proof. destruct tils; reflexivity. Qed.
Lemma set_made now m d v' b : set_payload b d = (v', None) ->
  apply_op (SetData b) (made_obj KEvent now m (PDict d) None None) = (made_obj KEvent now m (PDict v') None None, None).
Proof.
  intros E. cbn [apply_op]. unfold edit.
  assert (G : rbind (ditem $"grain" (o_meta (made_obj KEvent now m (PDict d) None None))) as_dict =
    Ok (match made now m $"event" [] [($"event_payload", PDict d)] with (_, PDict g) :: _ => g | _ => [] end)) by (destruct m as [s f t y r dr [tils|] ty v1 v2 v3 v4]; vm_compute; reflexivity).
  rewrite G. cbn [made].
  match goal with |- context [rbind (ditem _ ?g) as_dict] => set (gg := g); assert (D : rbind (ditem $"event_payload" gg) as_dict = Ok d) end.
  { unfold gg. destruct m as [s f t y r dr [tils|] ty v1 v2 v3 v4]; vm_compute; reflexivity. }
  rewrite D, E. f_equal. unfold gg. destruct m as [s f t y r dr [tils|] ty v1 v2 v3 v4]; vm_compute; reflexivity.
Qed.
Lemma made_event now s f t y r d tils b ty tp l ws : parse_payload b = Ok [($"type", ty); ($"topic", tp); ($"data", PList l)] -> read_entries l = (ws, None) ->
  GrainFactory now (meta_dict (mkMeta s f t y r d tils TEvent None None None None)) (ABytes b) =
  Ok (made_obj KEvent now (mkMeta s f t y r d tils TEvent None None None None) (payload_pv ty tp ws) None None).
Proof.
  intros P R. rewrite factory_event, construct_bytes, <- factory_event, made_event_empty. cbn [rbind].
  unfold empty_payload. rewrite (set_made _ _ _ [($"type", ty); ($"topic", tp); ($"data", PList ws)]); [reflexivity|].
  unfold set_payload. rewrite P.
  replace (py_iter _) with (Ok l) by reflexivity. rewrite R. reflexivity.
Qed.
Lemma made_shows now m ty tp ws es : Forall2 is_entry ws es -> shows (made_obj KEvent now m (payload_pv ty tp ws) None None) (mkP ty tp es).
Proof.
  intros F. apply shows_dict. exists (match made now m $"event" [] [($"event_payload", payload_pv ty tp ws)] with (_, PDict g) :: _ => g | _ => [] end), [($"type", ty); ($"topic", tp); ($"data", PList ws)].
  split; [destruct m as [s f t y r dr [tils|] k v1 v2 v3 v4]; vm_compute; reflexivity|].
  split; [destruct m as [s f t y r dr [tils|] k v1 v2 v3 v4]; vm_compute; reflexivity|]. exists ws. auto.
Qed.
(** The text is that of the payload. *)
Lemma text_of_event o p l : o_class o = KEvent -> shows o p -> event_entries o = Ok l -> Forall2 is_entry l (p_entries p) -> payload_json_ok p ->
  exists t, dumps (payload_pv (p_type p) (p_topic p) (l)) = Ok t /\ get_data o = Ok (Some (utf8_enc t)) /\
    parse_payload (utf8_enc t) = Ok [($"type", p_type p); ($"topic", p_topic p); ($"data", PList l)] /\ bytes_ok (utf8_enc t).
Proof.
  intros C S E F (J1 & J2 & J3).
  assert (V : json_ok (payload_pv (p_type p) (p_topic p) l)).
  { constructor.
    - cbn [map fst]. repeat constructor; cbn [In]; vm_compute; intuition congruence.
    - repeat constructor; cbn [fst snd]; try assumption; try (vm_compute; intuition congruence). apply (entries_json _ _ F J3). }
  destruct (loads_dumps _ V) as (t & T1 & T2). exists t. split; [exact T1|].
  pose proof (ascii_ok _ (dumps_ascii _ t T1)) as K. split; [|split].
  - unfold get_data, event_json. rewrite C, (shows_type _ _ S), (shows_topic _ _ S), E. cbn [rbind]. rewrite (entries_dicts _ _ F). cbn [rbind]. fold (payload_pv (p_type p) (p_topic p) l). rewrite T1. reflexivity.
  - unfold parse_payload. rewrite utf8_roundtrip by exact K. cbn [rbind]. rewrite T2. reflexivity.
  - apply utf8_enc_ok. exact K.
Qed.
Lemma parsed_some b x : parse_payload b = Ok x -> arg_of b = ABytes b.
Proof. destruct b; [|reflexivity]. vm_compute. discriminate. Qed.
Lemma kept_json es es' : Forall2 kept es es' -> Forall entry_json_ok es -> Forall entry_json_ok es'.
Proof.
  induction 1 as [|e e' es es' H _ IH]; intros F; constructor.
  - intros k v X. rewrite H in X. destruct (known k); [|discriminate]. exact (Forall_inv F k v X).
  - apply IH. exact (Forall_inv_tail F).
Qed.

(** The event that comes back: all that an event has, and reading it again changes nothing. *)
Lemma event_object major now o g p : of_own_type o -> o_class o = KEvent -> read_grain o = Ok g -> grain_ok g -> shows o p -> payload_json_ok p ->
  Forall (fun e : entry => e $"path" <> None) (p_entries p) ->
  exists o' ty tp ws, GrainFactory now (meta_dict (meta_of major g)) (arg_of (opt_bytes (g_data g))) = Ok o' /\ survives major now o o' /\ event_survives o o' p /\
    o' = made_obj KEvent now (meta_of major g) (payload_pv ty tp ws) None None /\
    exists b, get_data o' = Ok (Some b) /\ bytes_ok b /\ parse_payload b = Ok [($"type", ty); ($"topic", tp); ($"data", PList ws)] /\ read_entries ws = (ws, None).
Proof.
  intros T C H K S J N. pose proof (grain_read _ _ H) as R. pose proof (cr_body _ _ R) as B. rewrite (own_body o T), C in B. apply Ok_eq in B.
  destruct (shows_entries _ _ S) as (l & E & F). destruct (text_of_event o p l C S E F J) as (t & T1 & T2 & T3 & T4).
  pose proof (cr_data _ _ R) as D. rewrite T2 in D. apply Ok_eq in D.
  destruct (entries_back l (p_entries p) F N) as (ws & A1 & A2 & (es' & A3 & A4) & A5).
  set (o' := made_obj KEvent now (meta_of major g) (payload_pv (p_type p) (p_topic p) ws) None None).
  exists o', (p_type p), (p_topic p), ws.
  assert (Q : GrainFactory now (meta_dict (meta_of major g)) (arg_of (opt_bytes (g_data g))) = Ok o').
  { rewrite <- D. cbn [opt_bytes]. rewrite (parsed_some _ _ T3). unfold o'. destruct g as [s f t' y r d ls bd n x]. cbn [g_body] in B. subst bd. exact (made_event _ _ _ _ _ _ _ _ _ _ _ _ _ T3 A1). }
  split; [exact Q|]. assert (M : common_made now (meta_of major g) o') by apply made_common.
  assert (So' : shows o' (mkP (p_type p) (p_topic p) es')) by (apply made_shows; exact A3).
  destruct (common_survives major now o o' g T (eq_sym C) R K M) as [S1 S2 S3 S4].
  split; [|split; [|split; [reflexivity|]]].
  - constructor; try rewrite C; cbn [enum_names number_names app]; try discriminate; auto; [intros n' []|]. intros X. destruct X. reflexivity.
  - exists (mkP (p_type p) (p_topic p) es'). split; [exact So'|]. split; [reflexivity|]. split; [reflexivity|exact A4].
  - destruct J as (J1 & J2 & J3).
    assert (E' : event_entries o' = Ok ws) by (unfold o'; destruct (meta_of major g) as [s f t' y r dr [tils|] k v1 v2 v3 v4]; vm_compute; reflexivity).
    destruct (text_of_event o' (mkP (p_type p) (p_topic p) es') ws eq_refl So' E' A3) as (t' & U1 & U2 & U3 & U4).
    { split; [exact J1|]. split; [exact J2|]. exact (kept_json _ _ A4 J3). }
    exists (utf8_enc t'). auto.
Qed.
