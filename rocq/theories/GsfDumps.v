(** dump and dumps: one segment, all grains, read back by loads. *)
From Verif Require Import Base BaseProofs Utf8 Utf8Proofs GsfPrim GsfPrimProofs GsfBlock GsfBlockProofs
  GsfDecode CogEnums GsfEncode GsfSpec GsfCodecProofs GsfEncodeProofs GsfFileSpec GsfFileProofs GsfFileFacts GsfEncState GsfEncSpec
  GsfEncStateProofs GsfEncSession GsfEncInv GsfEncFile GsfEncDecodeSpec GsfEncDecode GsfEncFacts GsfGroup GsfGroupProofs.
From Coq Require Import ZifyBool ZifyNat.
Ltac Zify.zify_post_hook ::= Z.div_mod_to_equations.

(** The state before __exit__. *)
Definition dumped (gs : list grain) (seg_id : bytes) (stags : list (str * str)) (major minor : Z) (id : bytes) (created : datetime)
  (out : ofile) : enc :=
  mkEnc major minor id created false []
    [mkSt (mkESeg 1 seg_id None stags) 0 (-1) false gs (ParOpen 0)] 1 [mkSs false 2 false] (Some 0%nat) None out.

Lemma dump_steps gs seg_id stags major minor id created out :
  run_ops (new_encoder out major minor id created false) [Enter; OAddSegment 0 seg_id None stags; SAddGrains 1 gs] =
  dumped gs seg_id stags major minor id created out /\
  dump (new_encoder out major minor id created false) gs seg_id stags =
  match step (dumped gs seg_id stags major minor id created out) Exit with (e, Ok _) => (e, done) | (e, Err x) => (e, Err x) end.
Proof. split; reflexivity. Qed.

Theorem dump_roundtrip gs seg_id stags major minor id created out :
  (major = 7 \/ major = 8 \/ major = 9) -> u16 minor -> uuid_ok id -> dt_valid created = true ->
  uuid_ok seg_id -> Forall tag_fits stags -> i64 (zlen gs) -> prior out = [] ->
  zlen (enc_head id created [(mkESeg 1 seg_id None stags, 0)] []) < 4294967296 ->
  Forall (grain_fits major) (map (pair 1) gs) ->
  exists e, dump (new_encoder out major minor id created false) gs seg_id stags = (e, done) /\
    forall k strict fwd,
    let s := mkSess major minor (Some (mkHead id created [mkSegm 1 seg_id (zlen gs) None stags] [])) in
    decodes_to k strict fwd (o_data (e_out e)) s s
      (map (mode_data (k_mode k)) (select (k_ids k) (map (fun g => (meta_of major g, opt_bytes (g_data g), 1)) gs))).
Proof.
  intros H1 H2 H3 H4 H5 H6 H7 H8 H9 H10. destruct (dump_steps gs seg_id stags major minor id created out) as [E1 ->].
  set (d := dumped gs seg_id stags major minor id created out) in *.
  assert (reachable d) as HR by (rewrite <- E1; repeat eexists).
  assert (at_once d [Exit]) as HO by (apply (AO_exit _ 0%nat); reflexivity).
  assert (waiting (e_segs d) = map (pair 1) gs) as EW by (unfold waiting; cbn [d dumped e_segs flat_map st_local st_e es_local st_grains]; apply app_nil_r).
  assert (Forall (encodable (e_major d)) (waiting (e_segs d))) as HE by (rewrite EW; apply fits_encodable, H10).
  assert (snd (step d Exit) = done) as ED.
  { cbn [step]. unfold leave. cbn [d dumped e_sync e_streaming]. fold d. rewrite start_dump_ok by exact HE. reflexivity. }
  assert (reads_as d total (waiting (e_segs d)) (o_data (e_out (run_ops d [Exit])))) as HRD.
  { apply at_once_roundtrip; try assumption.
    - unfold head_fits. cbn [d dumped e_major e_minor e_id e_created e_tags e_segs]. repeat split; auto; try apply H2; try apply H3.
      repeat constructor; cbn [st_e es_local es_id es_tags es_flow]; try lia; try apply H5. exact H6.
    - repeat constructor; cbn [total st_wc st_grains]; unfold total; cbn [st_wc st_grains]; unfold i64 in H7; lia.
    - rewrite EW. exact H10. }
  destruct (step d Exit) as [e r] eqn:ES. cbn [snd] in ED. subst r. exists e. split; [reflexivity|].
  cbn [run_ops] in HRD. rewrite ES in HRD. cbn [fst] in HRD. destruct HRD as (segms & HF & HD).
  assert (segms = [mkSegm 1 seg_id (zlen gs) None stags]) as ->.
  { cbn [d dumped e_segs with_counts map total st_wc st_grains st_e] in HF. unfold total in HF. cbn [st_wc st_grains] in HF.
    inversion HF as [|a b l l' HA HB]; subst. inversion HB; subst. f_equal.
    destruct HA as (A1 & A2 & A3 & A4 & A5). destruct b as [b1 b2 b3 b4 b5]. cbn [sg_local sg_id sg_count sg_tags sg_flow fst snd es_local es_id es_tags es_flow] in *.
    inversion A5; subst. reflexivity. }
  intros k strict fwd. specialize (HD k strict fwd). rewrite EW, map_map in HD. exact HD.
Qed.

(** dumps with loads. *)
Theorem dumps_roundtrip gs seg_id stags major minor id created :
  (major = 7 \/ major = 8 \/ major = 9) -> u16 minor -> uuid_ok id -> dt_valid created = true ->
  uuid_ok seg_id -> Forall tag_fits stags -> i64 (zlen gs) ->
  zlen (enc_head id created [(mkESeg 1 seg_id None stags, 0)] []) < 4294967296 ->
  Forall (grain_fits major) (map (pair 1) gs) ->
  exists data, dumps gs seg_id stags major minor id created false = Ok data /\
    forall k strict fwd,
    let s := mkSess major minor (Some (mkHead id created [mkSegm 1 seg_id (zlen gs) None stags] [])) in
    decodes_to k strict fwd data s s
      (map (mode_data (k_mode k)) (select (k_ids k) (map (fun g => (meta_of major g, opt_bytes (g_data g), 1)) gs))).
Proof.
  intros H1 H2 H3 H4 H5 H6 H7 H9 H10.
  destruct (dump_roundtrip gs seg_id stags major minor id created (mkOut [] 0 true) H1 H2 H3 H4 H5 H6 H7 eq_refl H9 H10) as (e & ED & HD).
  exists (o_data (e_out e)). split; [|exact HD]. unfold dumps. rewrite ED. reflexivity.
Qed.

(** With streaming=True dumps never works: the session is already dumping when the segment is added. *)
Theorem dumps_streaming_fails gs seg_id stags major minor id created :
  dumps gs seg_id stags major minor id created true = Err EActive.
Proof. reflexivity. Qed.

(** loads of dumps: one group, of local id 1, with the grains in order. *)
Theorem dumps_loads gs seg_id stags major minor id created :
  (major = 7 \/ major = 8 \/ major = 9) -> u16 minor -> uuid_ok id -> dt_valid created = true ->
  uuid_ok seg_id -> Forall tag_fits stags -> i64 (zlen gs) ->
  zlen (enc_head id created [(mkESeg 1 seg_id None stags, 0)] []) < 4294967296 ->
  Forall (grain_fits major) (map (pair 1) gs) -> gs <> [] ->
  exists data d, dumps gs seg_id stags major minor id created false = Ok data /\
    loads data = Ok (mkHead id created [mkSegm 1 seg_id (zlen gs) None stags] [], d) /\
    seen_groups d = [(1, map (fun g => (meta_of major g, opt_bytes (g_data g))) gs)].
Proof.
  intros H1 H2 H3 H4 H5 H6 H7 H9 H10 HN.
  destruct (dumps_roundtrip gs seg_id stags major minor id created H1 H2 H3 H4 H5 H6 H7 H9 H10) as (data & ED & HD).
  specialize (HD (mkCfg None LoadImmediately true true true false) false false). cbv zeta in HD.
  destruct (load_groups _ _ _ _ _ _ _ _ _ _ _ HD eq_refl) as (d & EL & EG).
  exists data, d. split; [exact ED|]. split; [exact EL|]. rewrite EG. cbn [k_ids k_mode mode_data].
  assert (forall l : list shown, select None l = l) as ES.
  { induction l as [|x l IH]; [reflexivity|]. cbn [select filter in_ids]. f_equal. exact IH. }
  rewrite ES, map_map. clear - HN.
  enough (forall (l : list grain) (acc : list (gmeta * bytes)),
    group_from [(1, acc)] (map (fun g => by_local (mode_data LoadImmediately (meta_of major g, opt_bytes (g_data g), 1))) l) =
    [(1, acc ++ map (fun g => (meta_of major g, opt_bytes (g_data g))) l)]) as HG.
  { destruct gs as [|g gs]; [congruence|]. rewrite map_map. exact (HG gs [_]). }
  induction l as [|g l IH]; intros acc; [cbn [map group_from]; now rewrite app_nil_r|].
  cbn [map group_from]. unfold by_local at 1. cbn [mode_data fst snd put Z.eqb Pos.eqb]. rewrite IH, <- app_assoc. reflexivity.
Qed.
