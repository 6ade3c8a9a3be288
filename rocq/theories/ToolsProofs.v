(** Wrapping essence in GSF and extracting it again. *)
From Coq Require Import String Lia ZifyBool ZifyNat.
From Verif Require Import Base BaseProofs GsfPrim GsfPrimProofs GsfBlock GsfDecode CogEnums GsfEncode GsfSpec GsfFileSpec GsfEncState GsfEncSpec GsfEncodeProofs GsfEncFile GsfEncDecodeSpec GsfEncFacts
  PatternTime PyValue PyValueProofs JsonProofs GrainObj GrainSet GrainSetSpec GrainSetMain GrainCopy GrainGsf GrainGsfSpec GrainGsfFileSpec GrainGsfFile GrainGsfStream Wrap Tools ToolsSpec.
Local Open Scope list_scope.

(** ** The encoder while it writes. *)
Definition dumping (e : enc) : Prop :=
  exists s ss, e_segs e = [s] /\ st_local s = 1 /\ st_parent s = ParEncoder /\ e_sync e = Some 0%nat /\ e_sess e = [ss] /\ ss_active ss = true /\ e_major e = 9.
Lemma send_one e g : dumping e -> encodable 9 (1, g) -> exists e', GsfEncState.step e (SAddGrains 1 [g]) = (e', Ok tt) /\ dumping e'.
Proof.
  intros (s & ss & E1 & E2 & E3 & E4 & E5 & E6 & E7) [bs B]. cbn [fst snd] in B.
  unfold GsfEncState.step, seg_add_grains. rewrite E1. cbn [find_seg find]. unfold st_local in *. rewrite E2. cbn [Z.eqb Pos.eqb].
  unfold parent_active. rewrite E3, E4. unfold get_ss. rewrite E5. cbn [nth]. rewrite E6. cbn [write_grains]. rewrite E7, B.
  eexists. split; [reflexivity|]. exists (bump_wc s), ss. cbn. rewrite E1. cbn [upd_seg map]. unfold st_local. rewrite E2. cbn. repeat split; assumption.
Qed.
Lemma feed_sends os : forall gs e, dumping e -> Forall2 (fun o g => read_grain o = Ok g /\ encodable 9 (1, g)) os gs ->
  feed 1 os e = (run_ops e (map (fun g => SAddGrains 1 [g]) gs), Ok tt) /\ dumping (run_ops e (map (fun g => SAddGrains 1 [g]) gs)).
Proof.
  induction os as [|o os IH]; intros gs e D F; inversion F as [|? g ? gs' [R N] F']; subst; [split; [reflexivity|exact D]|].
  cbn [feed map run_ops]. rewrite R. destruct (send_one e g D N) as (e' & S & D'). rewrite S. cbn [fst]. exact (IH gs' e' D' F').
Qed.
(** One that cannot be read or written stops it. *)
Definition first_encoder (out : ofile) (id flow : bytes) (created : datetime) : enc :=
  mkEnc 9 0 id created false [] [new_seg flow 1 [] ParEncoder] 2 [] None None out.
Lemma first_added out id flow created : enc_add_segment (new_encoder out 9 0 id created false) flow None [] = (first_encoder out id flow created, Ok 1).
Proof. reflexivity. Qed.
Lemma started out id flow created : exists e, GsfEncState.step (first_encoder out id flow created) (StartDump false) = (e, Ok tt) /\ dumping e.
Proof.
  destruct out as [d p [|]]; (eexists; split; [reflexivity|]; eexists _, _; repeat split).
Qed.
Lemma finished e : dumping e -> exists e', GsfEncState.step e EndDump = (e', Ok tt).
Proof. intros (s & ss & _ & _ & _ & E & _). cbn. rewrite E. eexists. reflexivity. Qed.

Lemma wrap_runs id created t flow os gs x out : attr as_id $"flow_id" t = Ok flow -> Forall2 (fun o g => read_grain o = Ok g /\ encodable 9 (1, g)) os gs ->
  wrap_to_gsf id created t (os, x) out =
  (e_out (run_ops (first_encoder out id flow created) (StartDump false :: map (fun g => SAddGrains 1 [g]) gs ++ match x with None => [EndDump] | Some _ => [] end)),
   match x with None => Ok tt | Some e => Err e end).
Proof.
  intros F A. unfold wrap_to_gsf. rewrite F, first_added. destruct (started out id flow created) as (e & S & D). rewrite S. cbn [fst snd].
  destruct (feed_sends os gs e D A) as [-> D']. cbn [run_ops]. rewrite S. cbn [fst]. rewrite run_app.
  destruct x as [x|]; [reflexivity|]. destruct (finished _ D') as (e' & E). cbn [run_ops]. rewrite E. reflexivity.
Qed.

(** ** What is in the file. *)
Lemma sent_each gs : Forall (fun g => encodable 9 (1, g)) gs -> forall out id flow created,
  SentAll 9 (keys_of (first_encoder out id flow created)) 0 (map (fun g => SAddGrains 1 [g]) gs) (map (pair 1) gs).
Proof.
  intros F out id flow created. induction F as [|g gs N F IH]; [constructor|]. cbn [map].
  apply (SA_cons 9 _ 0 (SAddGrains 1 [g]) (map (fun g => SAddGrains 1 [g]) gs) [(1, g)] (map (pair 1) gs)); [|exact IH].
  constructor. apply (Ro_some 9 _ None (Some 1) [g] 1 [(1, g)]).
  - split; [left; reflexivity|]. constructor; [apply Z.le_refl|constructor].
  - apply (Ac_all 9 1 [g]). repeat constructor. exact N.
Qed.
Lemma clients gs : Forall (client_of false 0) (map (fun g => SAddGrains 1 [g]) gs).
Proof. induction gs; constructor; [exact I|assumption]. Qed.
Lemma head_fits_first out id flow created : uuid_ok id -> dt_valid created = true -> uuid_ok flow -> head_fits (first_encoder out id flow created).
Proof.
  intros U D V. unfold head_fits, first_encoder. cbn [e_major e_minor e_id e_created e_tags e_segs]. split; [auto|]. split; [unfold u16; lia|]. split; [exact U|]. split; [exact D|].
  split; [constructor|]. split.
  - constructor; [|constructor]. unfold seg_fits, new_seg. cbn [st_e es_local es_id es_tags es_flow]. split; [unfold u16; lia|]. split; [exact V|]. split; [constructor|exact I].
  - unfold enc_head, enc_head_prefix, with_counts, new_seg, enc_segm, enc_segm_prefix. cbn [map fst snd st_e flat_map es_local es_id es_flow es_tags enc_flow app].
    rewrite !zlen_app, enc_datetime_len. destruct U as [U _], V as [V _]. unfold enc_uuid. rewrite U, V. 
    rewrite !enc_uint_len, !enc_sint_len. vm_compute. reflexivity.
Qed.
Lemma asked_all ids os : asked ids (map (pair 1) os) = map (pair 1) (if in_ids ids 1 then os else []).
Proof. unfold asked. induction os as [|o os IH]; [destruct (in_ids ids 1); reflexivity|]. cbn [map filter fst]. rewrite IH. destruct (in_ids ids 1); reflexivity. Qed.
Lemma fits_each gs : Forall (grain_fits 9) (map (pair 1) gs) -> Forall (fun g => encodable 9 (1, g)) gs.
Proof.
  intros F. apply fits_encodable in F. apply Forall_forall. intros g I. rewrite Forall_forall in F. apply F. apply in_map. exact I.
Qed.
Lemma writable_pairs os gs : Forall2 writable os gs -> all_writable (map (pair 1) os) (map (pair 1) gs).
Proof. intros F. induction F as [|o g os gs W F IH]; constructor; [split; [reflexivity|exact W]|exact IH]. Qed.
Theorem file_back id created t flow os gs x out : attr as_id $"flow_id" t = Ok flow -> uuid_ok flow -> uuid_ok id -> dt_valid created = true -> prior out = [] ->
  Forall2 writable os gs -> Forall (grain_fits 9) (map (pair 1) gs) -> i64 (zlen gs) ->
  exists out', wrap_to_gsf id created t (os, x) out = (out', match x with None => Ok tt | Some e => Err e end) /\
    forall k strict fwd, at_once k -> exists s l, decode_file k (mkFile (GsfEncState.o_data out') 0 strict fwd) = Ok (s, (l, s, Done)) /\
      Forall2 (fun o i => i_local i = 1 /\ comes_back 9 (GsfEncState.o_data out') o i) (if in_ids (k_ids k) 1 then os else []) l.
Proof.
  intros F V U D P W G N. pose proof (fits_each gs G) as E.
  assert (A : Forall2 (fun o g => read_grain o = Ok g /\ encodable 9 (1, g)) os gs).
  { clear - W E. revert E. induction W as [|o g os gs W0 W IH]; intros E; [constructor|]. constructor; [split; [apply W0|exact (Forall_inv E)]|exact (IH (Forall_inv_tail E))]. }
  eexists. split; [exact (wrap_runs id created t flow os gs x out F A)|].
  set (e := first_encoder out id flow created).
  assert (R : exists c, reads_as e c (map (pair 1) gs) (GsfEncState.o_data (e_out (run_ops e (StartDump false :: map (fun g => SAddGrains 1 [g]) gs ++ match x with None => [EndDump] | Some _ => [] end))))).
  { destruct x as [x|].
    - eexists. rewrite app_nil_r. pose proof (stream_crash e false (StartDump false) EndDump (map (fun g => SAddGrains 1 [g]) gs) (map (pair 1) gs) (SM_start e)) as R.
      apply R; [|exact (clients gs)|exact (sent_each gs E out id flow created)|exact P|exact (head_fits_first out id flow created U D V)|exact G].
      intros _. constructor; [reflexivity|constructor].
    - eexists. pose proof (stream_roundtrip e false (StartDump false) EndDump (map (fun g => SAddGrains 1 [g]) gs) (map (pair 1) gs) (SM_start e)) as R.
      apply R; [|exact (clients gs)|exact (sent_each gs E out id flow created)|exact P|exact (head_fits_first out id flow created U D V)| |exact G].
      + intros _. constructor; [reflexivity|constructor].
      + constructor; [|constructor]. unfold final_count. destruct (o_seek _); [|unfold i64; lia].
        replace (total _ + occurs _ _) with (zlen gs); [exact N|]. unfold occurs, of_segment, total. cbn [st_local new_seg st_e es_local st_wc st_grains].
        clear. change (zlen (@nil grain)) with 0. unfold zlen. f_equal. induction gs as [|g gs IH]; [reflexivity|]. cbn [map filter fst Z.eqb Pos.eqb length]. lia. }
  destruct R as [c R]. intros k strict fwd K.
  destruct (objects_back e c (map (pair 1) os) (map (pair 1) gs) _ k strict fwd R (writable_pairs os gs W) K) as (s & l & X & Y).
  exists s, l. split; [exact X|]. rewrite asked_all in Y. clear - Y.
  revert l Y. induction (if in_ids (k_ids k) 1 then os else []) as [|o os' IH]; intros l Y; inversion Y as [|? i ? l' [Y1 Y2] Y3]; subst; constructor; [split; assumption|exact (IH l' Y3)].
Qed.

(** ** What is extracted. *)
Lemma essence_back now data os : forall l bs, Forall2 (fun o i => i_local i = 1 /\ comes_back 9 data o i) os l -> Forall2 has_payload os bs ->
  essence now data l = (concat bs, Ok tt).
Proof.
  induction os as [|o os IH]; intros l bs F P; inversion F as [|? i ? l' [_ C] F']; subst; inversion P as [|? b ? bs' [B [K NE]] P']; subst; [reflexivity|].
  cbn [essence]. destruct (C now) as (o' & -> & S & _). cbn [rbind]. destruct (sv_data _ _ _ _ S K) as (d & D & G & _). rewrite B in D. apply Ok_eq in D. subst d.
  assert (X : get_data o' = Ok (Some b)). { rewrite G. f_equal. destruct b as [|c b]; [|destruct (o_class o); reflexivity]. destruct (o_class o) eqn:Q; try reflexivity. destruct (NE eq_refl eq_refl). }
  rewrite X. rewrite (IH l' bs' F' P'). reflexivity.
Qed.
Theorem extract_wrapped id created t flow os gs bs x out : attr as_id $"flow_id" t = Ok flow -> uuid_ok flow -> uuid_ok id -> dt_valid created = true -> prior out = [] ->
  Forall2 writable os gs -> Forall (grain_fits 9) (map (pair 1) gs) -> i64 (zlen gs) -> Forall2 has_payload os bs ->
  exists out', wrap_to_gsf id created t (os, x) out = (out', match x with None => Ok tt | Some e => Err e end) /\
    forall ids now seekable strict fwd, extract ids now seekable (mkFile (GsfEncState.o_data out') 0 strict fwd) = (if in_ids ids 1 then concat bs else [], Ok tt).
Proof.
  intros F V U D P W G N B. destruct (file_back id created t flow os gs x out F V U D P W G N) as (out' & X & Y).
  exists out'. split; [exact X|]. intros ids now seekable strict fwd. unfold extract.
  destruct (Y (reading ids LoadImmediately seekable) strict fwd (or_introl eq_refl)) as (s & l & -> & L). cbn [f_data]. cbn [k_ids reading] in L.
  destruct (in_ids ids 1) eqn:I.
  - rewrite (essence_back now _ os l bs L B). reflexivity.
  - inversion L. reflexivity.
Qed.
(** Nothing to write: a plain grain without a payload. *)
Theorem extract_stops id created t flow os1 o os2 gs bs x out : attr as_id $"flow_id" t = Ok flow -> uuid_ok flow -> uuid_ok id -> dt_valid created = true -> prior out = [] ->
  Forall2 writable (os1 ++ o :: os2) gs -> Forall (grain_fits 9) (map (pair 1) gs) -> i64 (zlen gs) -> Forall2 has_payload os1 bs ->
  o_class o = KGrain -> opt_bytes (o_data o) = [] ->
  exists out', wrap_to_gsf id created t (os1 ++ o :: os2, x) out = (out', match x with None => Ok tt | Some e => Err e end) /\
    forall ids now seekable strict fwd, in_ids ids 1 = true -> extract ids now seekable (mkFile (GsfEncState.o_data out') 0 strict fwd) = (concat bs, Err EType).
Proof.
  intros F V U D P W G N B K E. destruct (file_back id created t flow (os1 ++ o :: os2) gs x out F V U D P W G N) as (out' & X & Y).
  exists out'. split; [exact X|]. intros ids now seekable strict fwd I. unfold extract.
  destruct (Y (reading ids LoadImmediately seekable) strict fwd (or_introl eq_refl)) as (s & l & -> & L). cbn [f_data]. cbn [k_ids reading] in L. rewrite I in L.
  assert (Q : essence now (GsfEncState.o_data out') l = (concat bs, Err EType)).
  { clear - L B K E. revert l bs L B. induction os1 as [|o1 os1 IH]; intros l bs L B; inversion L as [|? i ? l' [_ C] L']; subst; inversion B as [|? b ? bs' [B1 [B2 B3]] B']; subst; cbn [essence]; destruct (C now) as (o' & O & S & _); rewrite O; cbn [rbind].
    - destruct (sv_data _ _ _ _ S) as (d & D1 & D2 & _); [congruence|]. rewrite D2, K. unfold get_data in D1. rewrite K in D1. apply Ok_eq in D1. subst d. destruct (o_data o) as [b|]; [|reflexivity]. cbn [opt_bytes] in E. rewrite E. reflexivity.
    - destruct (sv_data _ _ _ _ S B2) as (d & D1 & D2 & _). rewrite B1 in D1. apply Ok_eq in D1. subst d.
      assert (Z : get_data o' = Ok (Some b)). { rewrite D2. f_equal. destruct b as [|c b]; [|destruct (o_class o1); reflexivity]. destruct (o_class o1) eqn:Q; try reflexivity. destruct (B3 eq_refl eq_refl). }
      rewrite Z. rewrite (IH l' bs' L' B'). reflexivity. }
  rewrite Q. reflexivity.
Qed.
