(** Grain objects through whole files. *)
From Coq Require Import String Lia ZifyBool ZifyNat.
From Verif Require Import Base BaseProofs GsfPrim GsfPrimProofs GsfDecode CogEnums GsfEncode GsfSpec GsfFileSpec GsfEncState GsfEncSpec GsfEncDecodeSpec GsfDumps PyValue PyValueProofs Json JsonProofs GrainObj BuildKw EventSpec EventProofs EventMain GrainGsf GrainGsfSpec GrainGsfFileSpec GrainGsfMade GrainGsfRead GrainGsfMain GrainGsfEvent GrainGsfSettle.
Local Open Scope list_scope.

(** ** One item. *)
Lemma item_arg data (p : GsfDecode.payload) : payload_arg data p <> AWait -> (p = GsfDecode.PNone <-> loaded data p = []) -> payload_arg data p = arg_of (loaded data p).
Proof.
  intros N E. destruct p as [|b|pos len|pos len x]; cbn [payload_arg loaded] in *; try reflexivity.
  - destruct b; [|reflexivity]. destruct E as [_ E]. discriminate (E eq_refl).
  - destruct (slice data pos len); [|reflexivity]. destruct E as [_ E]. discriminate (E eq_refl).
  - destruct N. reflexivity.
Qed.
Lemma item_now now data i : payload_arg data (i_data i) <> AWait -> (i_data i = GsfDecode.PNone <-> loaded data (i_data i) = []) ->
  item_object now data i = GrainFactory now (meta_dict (i_meta i)) (arg_of (loaded data (i_data i))).
Proof.
  intros N E. unfold item_object. rewrite (item_arg _ _ N E). destruct (GrainFactory _ _ _) as [o|e]; [|reflexivity]. cbn [rbind].
  destruct (i_data i); try reflexivity. destruct N. reflexivity.
Qed.
Lemma created_data o o' : only_created o o' -> get_data o' = get_data o.
Proof.
  intros (C & D & _ & _ & F). unfold get_data, event_json, event_entries, in_section. rewrite C, D, (F $"event_payload") by discriminate. reflexivity.
Qed.
Lemma event_body o g : of_own_type o -> read_grain o = Ok g -> (o_class o = KEvent <-> g_body g = BEvent).
Proof.
  intros T R.
  pose proof (cr_body _ _ (grain_read _ _ R)) as B. rewrite (own_body o T) in B. destruct (o_class o).
    - apply Ok_eq in B. rewrite <- B. split; discriminate.
    - apply rbind_ok in B as (v & _ & B). apply Ok_eq in B. rewrite <- B. split; discriminate.
    - apply rbind_ok in B as (v & _ & B). apply Ok_eq in B. rewrite <- B. split; discriminate.
    - apply rbind_ok in B as (v & _ & B). apply Ok_eq in B. rewrite <- B. split; discriminate.
    - apply rbind_ok in B as (v & _ & B). apply Ok_eq in B. rewrite <- B. split; discriminate.
    - apply Ok_eq in B. rewrite <- B. split; reflexivity.
Qed.
Lemma object_back major o g data i : writable o g -> i_meta i = meta_of major g -> loaded data (i_data i) = opt_bytes (g_data g) ->
  payload_arg data (i_data i) <> AWait -> (i_data i = GsfDecode.PNone <-> opt_bytes (g_data g) = []) -> comes_back major data o i.
Proof.
  intros (T & R & K & EV) M L NW E now. rewrite (item_now now data i NW) by (rewrite L; exact E). rewrite M, L.
  pose proof (event_body o g T R) as Body.
  assert (D : {o_class o = KEvent} + {o_class o <> KEvent}) by (destruct (o_class o); auto; right; discriminate). destruct D as [C|C].
  - (* an event *)
    destruct (EV C) as (p & S & J & N).
    destruct (event_object major now o g p T C R K S J N) as (o' & ty & tp & ws & Q & SV & ES & EO & b & D1 & D2 & D3 & D4).
    exists o'. split; [exact Q|]. split; [exact SV|]. split.
    { intros _ p2 (S2 & J2 & N2). destruct (event_object major now o g p2 T C R K S2 J2 N2) as (o2 & _ & _ & _ & Q2 & _ & ES2 & _). rewrite Q2 in Q. apply Ok_eq in Q. subst o2. exact ES2. }
    assert (W : forall now2, read_grain (made_obj KEvent now2 (meta_of major g) (payload_pv ty tp ws) None None) = Ok (settled major g (Some b))).
    { intros now2. apply (read_made major now2 g _ (Some b) K (made_common _ _ _ _ _ _)); [|rewrite (created_data _ _ (made_when KEvent now now2 _ _ _ _)); subst o'; exact D1|reflexivity].
      rewrite (own_body _ (made_own _ _ _ _ _ _)). cbn [o_class made_obj]. rewrite (proj1 Body C). reflexivity. }
    exists (settled major g (Some b)). split.
    + split; [subst o'; apply made_own|]. split; [subst o'; apply W|]. split; [apply settled_ok; assumption|]. intros _.
      (* the payload of the new event *)
      destruct ES as (p' & S' & SP). exists p'. split; [exact S'|]. destruct SP as (P1 & P2 & P3). destruct J as (J1 & J2 & J3). split.
      * split; [rewrite <- P1; exact J1|]. split; [rewrite <- P2; exact J2|]. exact (kept_json _ _ P3 J3).
      * clear - P3 N. induction P3 as [|e e' es es' H P3 IH]; constructor; [|apply IH; exact (Forall_inv_tail N)]. rewrite H. change (known $"path") with true. cbv iota. exact (Forall_inv N).
    + intros now' data' i' M' L' NW' E'. rewrite (item_now now' data' i' NW') by (rewrite L'; exact E'). rewrite M', L', settled_meta by exact K. cbn [settled g_data opt_bytes].
      rewrite (parsed_some _ _ D3). exists (made_obj KEvent now' (meta_of major g) (payload_pv ty tp ws) None None). split; [|split; [subst o'; apply made_when|apply W]].
      destruct g as [s f t y r d ls bd n x]. cbn [g_body] in Body. pose proof (proj1 Body C) as X. subst bd. exact (made_event _ _ _ _ _ _ _ _ _ _ _ _ _ D3 D4).
  - (* any other grain *)
    destruct (object_survives major now o g T R K C) as (o' & Q & SV). exists o'. split; [exact Q|]. split; [exact SV|]. split; [intros X; contradiction|].
    assert (NB : g_body g <> BEvent) by (intros X; apply C, Body, X).
    destruct (made_form major g K NB) as (c & v & d & Dd & F). destruct (F now) as [F1 F2]. rewrite Q in F1. apply Ok_eq in F1.
    assert (Kb : bytes_ok (opt_bytes d)) by (rewrite Dd; apply K).
    exists (settled major g d). split.
    + split; [subst o'; apply made_own|]. split; [subst o'; exact F2|]. split; [apply settled_ok; assumption|]. intros X. exfalso. apply C. rewrite <- (sv_class _ _ _ _ SV). exact X.
    + intros now' data' i' M' L' NW' E'. rewrite (item_now now' data' i' NW') by (rewrite L'; exact E'). rewrite M', L', settled_meta by exact K.
      replace (opt_bytes (g_data (settled major g d))) with (opt_bytes (g_data g)) by (symmetry; exact Dd).
      destruct (F now') as [F3 F4]. eexists. split; [exact F3|]. split; [subst o'; apply made_when|exact F4].
Qed.

(** ** Deferred payloads. *)
Lemma wait_attr c m b w n : c <> KEvent -> getattr (mkO c m (Some b) w) n = getattr (mkO c m (Some b) None) n.
Proof.
  intros N. unfold getattr. cbn [o_class].
  assert (F : forall l, Forall (fun kf : str * (gobj -> res pv) => snd kf (mkO c m (Some b) w) = snd kf (mkO c m (Some b) None)) l ->
    match dget n l with Some f => f (mkO c m (Some b) w) | None => Err EAttr end = match dget n l with Some f => f (mkO c m (Some b) None) | None => Err EAttr end).
  { induction l as [|[k f] l IH]; intros H; [reflexivity|]. cbn [dget]. destruct (zlist_eqb n k); [exact (Forall_inv H)|exact (IH (Forall_inv_tail H))]. }
  apply F. destruct c; try (destruct N; reflexivity); repeat (apply Forall_cons; [reflexivity|]); apply Forall_nil.
Qed.
Lemma wait_survives major now o c m b w : c <> KEvent -> survives major now o (mkO c m (Some b) None) -> survives major now o (mkO c m (Some b) w).
Proof.
  intros N [S1 S2 S3 S4 S5 S6 S7 S8 S9 S10 S11 S12 S13]. pose proof (fun n => wait_attr c m b w n N) as A. constructor.
  - exact S1.
  - intros n H. rewrite A. exact (S2 n H).
  - intros n H. destruct (S3 n H) as (t & X & Y). exists t. rewrite A. auto.
  - rewrite A. exact S4.
  - exact S5.
  - intros n H. destruct (S6 n H) as (v & z & X & Y & Z). exists v, z. rewrite A. auto.
  - intros C n H. destruct (S7 C n H) as (v & X & Y). exists v. rewrite A. auto.
  - exact S8.
  - intros C. destruct (S9 C) as (v & z & X & Y & Z). exists v, z. rewrite A. auto.
  - intros C. destruct (S10 C) as (v & z & X & Y & Z). exists v, z. rewrite A. auto.
  - exact S11.
  - intros C n H. rewrite A. exact (S12 C n H).
  - intros C. destruct (S13 C) as (d & X & Y & Z). exists d. rewrite A. split; [exact X|]. split; [|exact Z]. destruct c; exact Y || (destruct N; reflexivity).
Qed.
(** The decoder's objects, with the data that there is and with data that has to be waited for. *)
Lemma factory_form major g : g_body g <> BEvent -> exists c v, c <> KEvent /\ forall now a, a <> ANone ->
  GrainFactory now (meta_dict (meta_of major g)) a = Ok (made_obj c now (meta_of major g) v (data_of a) (wait_of a)).
Proof.
  destruct g as [s f t y r d ls bd n x]. cbn [g_body]. destruct bd as [|v|c|u|u|]; intros N.
  - exists KGrain, (PDict []). split; [discriminate|]. intros now a _. exact (made_empty _ _ _ _ _ _ _ _ _).
  - exists KVideo, (PDict (video_dict (norm_vmeta v))). split; [discriminate|]. intros now a A. replace (data_of a) with (data_or_empty a) by (destruct a; reflexivity || (destruct A; reflexivity)). exact (made_video _ _ _ _ _ _ _ _ _ _).
  - eexists KCodedVideo, _. split; [discriminate|]. intros now a A. replace (data_of a) with (data_or_empty a) by (destruct a; reflexivity || (destruct A; reflexivity)). exact (made_coded _ _ _ _ _ _ _ _ _ _).
  - eexists KAudio, _. split; [discriminate|]. intros now a A. replace (data_of a) with (data_or_empty a) by (destruct a; reflexivity || (destruct A; reflexivity)). exact (made_audio _ _ _ _ _ _ _ _ _ _).
  - eexists KCodedAudio, _. split; [discriminate|]. intros now a A. replace (data_of a) with (data_or_empty a) by (destruct a; reflexivity || (destruct A; reflexivity)). exact (made_coded_audio _ _ _ _ _ _ _ _ _ _).
  - destruct N. reflexivity.
Qed.

Lemma object_back_later major o g data i : writable o g -> o_class o <> KEvent -> i_meta i = meta_of major g -> loaded data (i_data i) = opt_bytes (g_data g) ->
  match i_data i with GsfDecode.PNone => True | PLazy pos len _ => 0 < len /\ zlen (slice data pos len) = len | _ => False end -> comes_back_later major data o i.
Proof.
  intros (T & R & K & _) C M L F now. pose proof (grain_read _ _ R) as CR.
  assert (D : opt_bytes (o_data o) = opt_bytes (g_data g)). { pose proof (cr_data _ _ CR) as X. unfold get_data in X. destruct (o_class o); try (apply Ok_eq in X; rewrite X; reflexivity). destruct C. reflexivity. }
  destruct (object_survives major now o g T R K C) as (o1 & Q & SV). destruct (sv_data _ _ _ _ SV C) as (d0 & G0 & G1 & G2).
  unfold item_object. rewrite M. destruct (i_data i) as [|b|pos len|pos len x] eqn:EI; try contradiction.
  - cbn [loaded] in L. rewrite <- L in Q. cbn [arg_of] in Q. cbn [payload_arg]. exists o1. rewrite Q. split; [reflexivity|]. split; [exact G2|]. rewrite D, <- L. split; [intros X; destruct X; reflexivity|].
    unfold awaited. destruct (o_data o1); [exact SV|]. destruct (o_wait o1) as [w|] eqn:W; [|exact SV].
    (* nothing to wait for *)
    exfalso. destruct (made_form major g K (fun X => C (proj2 (event_body o g T R) X))) as (c & v & d & _ & Fm). destruct (Fm now) as [Fm1 _]. rewrite <- L in Fm1. cbn [arg_of] in Fm1. rewrite Q in Fm1. apply Ok_eq in Fm1. subst o1. discriminate W.
  - cbn [loaded] in L. destruct F as [F1 F2]. destruct (factory_form major g (fun X => C (proj2 (event_body o g T R) X))) as (c & v & NC & Fm).
    cbn [payload_arg]. rewrite (Fm now AWait) by discriminate. cbn [rbind wait_of data_of].
    assert (NE : arg_of (opt_bytes (g_data g)) = ABytes (opt_bytes (g_data g))). { rewrite <- L. destruct (slice data pos len) as [|y ys] eqn:X; [|reflexivity]. exfalso. cbn in F2. lia. }
    assert (Q1 := Fm now (ABytes (opt_bytes (g_data g)))). rewrite <- NE, Q in Q1. specialize (Q1 ltac:(rewrite NE; discriminate)). apply Ok_eq in Q1. rewrite NE in Q1. cbn [wait_of data_of] in Q1.
    exists (mkO c (o_meta o1) None (Some len)). split.
    { unfold set_length, get_data. cbn [made_obj o_class]. destruct c; try (destruct NC; reflexivity); rewrite Q1; reflexivity. }
    split; [|split].
    + rewrite <- G2, !length_same. unfold get_length. rewrite Q1. unfold get_data. cbn [made_obj o_class]. destruct c; try (destruct NC; reflexivity); cbn [rbind o_data o_wait made_obj]; rewrite <- L, F2; reflexivity.
    + intros _. unfold get_data. cbn [o_class]. destruct c; try (destruct NC; reflexivity); reflexivity.
    + unfold awaited. cbn [o_data o_wait o_class o_meta]. rewrite EI. cbn [loaded]. rewrite L. apply wait_survives; [exact NC|]. rewrite Q1 in SV |- *. exact SV.
Qed.
(** An event is never made with a payload that has to be waited for. *)
Lemma made_event_wait now s f t y r d tils :
  GrainFactory now (meta_dict (mkMeta s f t y r d tils TEvent None None None None)) AWait = Ok (made_obj KEvent now (mkMeta s f t y r d tils TEvent None None None None) empty_payload None (Some 0)).
Proof. destruct tils; vm_compute; reflexivity. Qed.
Lemma empty_text : exists b, forall m d w, field $"event_payload" (mkO KEvent m d w) = Ok empty_payload -> get_data (mkO KEvent m d w) = Ok (Some b).
Proof.
  eexists. intros m d w F. unfold get_data, event_json, event_entries, in_section. cbn [o_class]. rewrite F. vm_compute. reflexivity.
Qed.
Lemma event_field now m v d w : field $"event_payload" (made_obj KEvent now m v d w) = Ok v.
Proof. destruct m as [s f t y r dr [tils|] ty v1 v2 v3 v4]; vm_compute; reflexivity. Qed.
Lemma event_never major o g data i pos len x now : of_own_type o -> read_grain o = Ok g -> o_class o = KEvent -> i_meta i = meta_of major g -> i_data i = PLazy pos len x -> item_object now data i = Err EAttr.
Proof.
  intros T R C M E. apply (event_body o g T R) in C. destruct g as [s f t y r d ls bd n z]. cbn [g_body] in C. subst bd. unfold item_object. rewrite M, E. cbn [payload_arg].
  unfold meta_of. cbn [g_src g_flow g_origin g_sync g_rate g_dur g_tils g_body]. rewrite made_event_wait. cbn [rbind].
  destruct empty_text as [b B]. unfold set_length. set (X := made_obj _ _ _ _ _ _). replace (get_data X) with (Ok (Some b)); [reflexivity|]. symmetry. apply B. exact (event_field _ _ _ _ _).
Qed.

(** ** Files. *)
Lemma asked_seen ids major los lgs : all_writable los lgs ->
  exists lgs', select ids (map (grain_seen major) lgs) = map (grain_seen major) lgs' /\ all_writable (asked ids los) lgs'.
Proof.
  intros H. induction H as [|[a o] [b g] los lgs [E W] H IH]; [exists []; split; [reflexivity|constructor]|].
  cbn [fst snd] in E, W. subst b. destruct IH as (lgs' & S & A). cbn [map select filter asked fst]. change (shown_local (grain_seen major (a, g))) with a. destruct (in_ids ids a).
  - exists ((a, g) :: lgs'). split; [cbn [map]; f_equal; exact S|]. constructor; [split; [reflexivity|exact W]|exact A].
  - exists lgs'. split; assumption.
Qed.
Lemma mode_same m l : m <> LoadNever -> map (mode_data m) l = l.
Proof. intros N. rewrite (map_ext _ (fun x => x)); [apply map_id|]. intros x. destruct m; try reflexivity. destruct N. reflexivity. Qed.
Lemma form_now k data p : at_once k -> payload_form k data p -> payload_arg data p <> AWait /\ (p = GsfDecode.PNone <-> loaded data p = []).
Proof.
  intros A F. destruct F as [|d F1 F2|pos len F1 F2 F3 F4 F5|pos len F1 F2 F3 F4 F5]; cbn [payload_arg loaded]; (split; [discriminate || idtac|]).
  - split; reflexivity.
  - split; [discriminate|contradiction].
  - split; [discriminate|]. intros X. rewrite X in F5. cbn in F5. lia.
  - exfalso. unfold at_once in A. destruct A as [A|(_ & [A|A])]; [destruct F1|..]; congruence.
  - exfalso. unfold at_once in A. destruct A as [A|(_ & [A|A])]; [destruct F1|..]; congruence.
Qed.
Lemma items_back k major data los lgs l : at_once k -> all_writable los lgs -> map (view data) l = map (grain_seen major) lgs -> Forall (fun i => payload_form k data (i_data i)) l ->
  Forall2 (fun lo i => i_local i = fst lo /\ comes_back major data (snd lo) i) los l.
Proof.
  intros A H. revert l. induction H as [|[a o] [b g] los lgs [E W] H IH]; intros [|i l] V F; try discriminate; [constructor|].
  cbn [map] in V. injection V as V1 V3 V4 V2. cbn [fst snd] in *. subst b. constructor; [|exact (IH l V2 (Forall_inv_tail F))].
  split; [exact V4|]. destruct (form_now k data (i_data i) A (Forall_inv F)) as [N Z]. rewrite V3 in Z. exact (object_back major o g data i W V1 V3 N Z).
Qed.
Lemma form_later k data p : deferred k -> payload_form k data p -> match p with GsfDecode.PNone => True | PLazy pos len _ => 0 < len /\ zlen (slice data pos len) = len | _ => False end.
Proof.
  intros (M & B & L) F. destruct F as [|d F1 F2|pos len F1 F2 F3 F4 F5|pos len F1 F2 F3 F4 F5]; auto.
  - destruct F1 as [F1|[_ F1]]; destruct M; congruence.
  - congruence.
Qed.
Lemma items_later k major data los lgs l : deferred k -> all_writable los lgs -> map (view data) l = map (grain_seen major) lgs -> Forall (fun i => payload_form k data (i_data i)) l ->
  Forall2 (fun lo i => i_local i = fst lo /\ match o_class (snd lo) with KEvent => forall now, item_object now data i = Err EAttr | _ => comes_back_later major data (snd lo) i end) los l.
Proof.
  intros A H. revert l. induction H as [|[a o] [b g] los lgs [E W] H IH]; intros [|i l] V F; try discriminate; [constructor|].
  cbn [map] in V. injection V as V1 V3 V4 V2. cbn [fst snd] in *. subst b. constructor; [|exact (IH l V2 (Forall_inv_tail F))].
  split; [exact V4|]. pose proof (form_later k data (i_data i) A (Forall_inv F)) as Z.
  assert (D : {o_class o = KEvent} + {o_class o <> KEvent}) by (destruct (o_class o); auto; right; discriminate). destruct D as [C|C].
  - cbn [snd]. rewrite C. intros now. destruct (i_data i) as [|d|pos len|pos len x] eqn:D; try contradiction.
    + exfalso. destruct W as (T & R & K & EV). destruct (EV C) as (p & S & J & N). destruct (shows_entries _ _ S) as (es & E & Fe). destruct (text_of_event o p es C S E Fe J) as (t & _ & T2 & T3 & _).
      pose proof (cr_data _ _ (grain_read _ _ R)) as X. rewrite T2 in X. apply Ok_eq in X. rewrite <- X in V3. cbn [opt_bytes loaded] in V3. rewrite <- V3 in T3. discriminate (parsed_some _ _ T3).
    + destruct W as (T & R & _). exact (event_never major o g data i pos len x now T R C V1 D).
  - cbn [snd]. pose proof (object_back_later major o g data i W C V1 V3 Z) as Y. destruct (o_class o); exact Y || (destruct C; reflexivity).
Qed.

Theorem objects_back e c los lgs data k strict fwd : reads_as e c lgs data -> all_writable los lgs -> at_once k ->
  exists s l, decode_file k (mkFile data 0 strict fwd) = Ok (s, (l, s, Done)) /\
    Forall2 (fun lo i => i_local i = fst lo /\ comes_back (e_major e) data (snd lo) i) (asked (k_ids k) los) l.
Proof.
  intros (segms & _ & R) W A. destruct (R k strict fwd) as (l & D & V & F). eexists. exists l. split; [exact D|].
  destruct (asked_seen (k_ids k) (e_major e) los lgs W) as (lgs' & S & W'). rewrite S, mode_same in V by (destruct A as [A|[A _]]; congruence).
  exact (items_back k (e_major e) data _ lgs' l A W' V F).
Qed.
Theorem objects_later e c los lgs data k strict fwd : reads_as e c lgs data -> all_writable los lgs -> deferred k ->
  exists s l, decode_file k (mkFile data 0 strict fwd) = Ok (s, (l, s, Done)) /\
    Forall2 (fun lo i => i_local i = fst lo /\ match o_class (snd lo) with KEvent => forall now, item_object now data i = Err EAttr | _ => comes_back_later (e_major e) data (snd lo) i end) (asked (k_ids k) los) l.
Proof.
  intros (segms & _ & R) W A. destruct (R k strict fwd) as (l & D & V & F). eexists. exists l. split; [exact D|].
  destruct (asked_seen (k_ids k) (e_major e) los lgs W) as (lgs' & S & W'). rewrite S, mode_same in V by (destruct A as ([A|A] & _); congruence).
  exact (items_later k (e_major e) data _ lgs' l A W' V F).
Qed.
Theorem objects_dumped os gs seg_id stags major minor id created :
  (major = 7 \/ major = 8 \/ major = 9) -> u16 minor -> uuid_ok id -> dt_valid created = true ->
  uuid_ok seg_id -> Forall tag_fits stags -> i64 (zlen gs) ->
  zlen (enc_head id created [(mkESeg 1 seg_id None stags, 0)] []) < 4294967296 ->
  Forall (grain_fits major) (map (pair 1) gs) -> Forall2 writable os gs ->
  exists data, GsfEncState.dumps gs seg_id stags major minor id created false = Ok data /\
    forall k strict fwd, at_once k -> k_ids k = None ->
    exists s l, decode_file k (mkFile data 0 strict fwd) = Ok (s, (l, s, Done)) /\ Forall2 (comes_back major data) os l.
Proof.
  intros H1 H2 H3 H4 H5 H6 H7 H8 H9 W.
  destruct (dumps_roundtrip gs seg_id stags major minor id created H1 H2 H3 H4 H5 H6 H7 H8 H9) as (data & E & R). exists data. split; [exact E|].
  intros k strict fwd A I. destruct (R k strict fwd) as (l & D & V & F). eexists. exists l. split; [exact D|].
  rewrite mode_same, I in V by (destruct A as [A|[A _]]; congruence).
  assert (S : select None (map (fun g => (meta_of major g, opt_bytes (g_data g), 1)) gs) = map (grain_seen major) (map (pair 1) gs)).
  { rewrite map_map. clear. induction gs as [|g gs IH]; [reflexivity|]. cbn [map select filter in_ids]. f_equal. exact IH. }
  rewrite S in V.
  assert (X : all_writable (map (pair 1) os) (map (pair 1) gs)) by (clear - W; induction W; constructor; auto).
  pose proof (items_back k major data _ _ l A X V F) as Y. clear - Y. revert l Y. induction os as [|o os IH]; intros l Y; inversion Y; subst; constructor; [|apply IH; assumption].
  exact (proj2 H1).
Qed.
