(** Proofs about the encoder's state: what starting, writing to and ending a dump leave in the output. *)
From Verif Require Import Base BaseProofs Utf8 Utf8Proofs GsfPrim GsfPrimProofs GsfBlock GsfBlockProofs
  GsfDecode CogEnums GsfEncode GsfSpec GsfEncodeProofs GsfEncState GsfEncSpec.
From Coq Require Import ZifyBool ZifyNat.
Ltac Zify.zify_post_hook ::= Z.div_mod_to_equations.

(** ---------------------------------------------------------------- the output *)

Lemma o_write_end o d : o_seek o = true -> o_pos o = zlen (o_data o) ->
  o_write o d = mkOut (o_data o ++ d) (o_pos o + zlen d) true.
Proof.
  intros HS HP. unfold o_write. rewrite HS, HP. rewrite zfirst_all by lia. replace (zlen (o_data o) - zlen (o_data o)) with 0 by lia.
  cbn [Z.to_nat zeros repeat app]. pose proof (zlen_nonneg d). rewrite (zskip_all _ (o_data o)) by lia.
  now rewrite app_nil_r.
Qed.

Lemma o_write_mid o a b c d : o_seek o = true -> o_data o = a ++ b ++ c -> o_pos o = zlen a -> zlen b = zlen d ->
  o_write o d = mkOut (a ++ d ++ c) (zlen a + zlen d) true.
Proof.
  intros HS HD HP HL. unfold o_write. rewrite HS, HD, HP. rewrite zfirst_app.
  pose proof (zlen_nonneg b). pose proof (zlen_nonneg c).
  replace (Z.to_nat (zlen a - zlen (a ++ b ++ c))) with 0%nat by (rewrite !zlen_app; lia).
  cbn [zeros repeat app]. rewrite <- HL. rewrite <- zlen_app, (app_assoc a b c), zskip_app. reflexivity.
Qed.

(** Appending to an output whose position is at its end. *)
Definition at_end (o : ofile) : Prop := o_seek o = true -> o_pos o = zlen (o_data o).

Definition o_append (o : ofile) (d : bytes) : ofile :=
  mkOut (o_data o ++ d) (if o_seek o then o_pos o + zlen d else o_pos o) (o_seek o).

Lemma o_write_append o d : at_end o -> o_write o d = o_append o d.
Proof.
  intros H. unfold at_end in H. destruct (o_seek o) eqn:E.
  - rewrite o_write_end by auto. unfold o_append. rewrite E. reflexivity.
  - unfold o_write, o_append. rewrite E. reflexivity.
Qed.

Lemma at_end_append o d : at_end o -> at_end (o_append o d).
Proof. unfold at_end, o_append. cbn [o_data o_pos o_seek]. intros H HS. rewrite HS, H, zlen_app by assumption. reflexivity. Qed.

Lemma o_append_app o a b : o_append (o_append o a) b = o_append o (a ++ b).
Proof.
  unfold o_append. cbn [o_data o_pos o_seek]. rewrite app_assoc. f_equal.
  destruct (o_seek o); [rewrite zlen_app; lia|reflexivity].
Qed.

Lemma o_append_nil o : o_append o [] = o.
Proof. destruct o as [d p s]. unfold o_append. cbn [o_data o_pos o_seek]. rewrite app_nil_r, zlen_nil. f_equal. destruct s; lia. Qed.

Lemma o_write_seek o d : o_seek (o_write o d) = o_seek o.
Proof. unfold o_write. destruct (o_seek o); reflexivity. Qed.

(** ---------------------------------------------------------------- encoding the waiting grains *)

Definition flush (s : segst) : segst :=
  mkSt (st_e s) (st_wc s + zlen (st_grains s)) (st_cpos s) (st_active s) [] (st_parent s).

Lemma enc_grain_list_ok major gs : forall s, Forall (fun g => encodable major (st_local s, g)) gs ->
  enc_grain_list major s gs =
  (mkSt (st_e s) (st_wc s + zlen gs) (st_cpos s) (st_active s) [] (st_parent s),
   Ok (flat_map (gbytes major) (map (pair (st_local s)) gs))).
Proof.
  induction gs as [|g gs IH]; intros s H; cbn [enc_grain_list flat_map map].
  - rewrite zlen_nil, Z.add_0_r. reflexivity.
  - pose proof (Forall_inv H) as (bs & HE). cbn [fst snd] in HE. rewrite HE.
    rewrite IH by (exact (Forall_inv_tail H)). cbn [bump_wc st_e st_wc st_cpos st_active st_parent].
    unfold gbytes at 2. cbn [fst snd]. rewrite HE. rewrite zlen_cons.
    change (st_local (bump_wc s)) with (st_local s).
    replace (st_wc s + 1 + zlen gs) with (st_wc s + (1 + zlen gs)) by lia. reflexivity.
Qed.

Lemma enc_all_grains_ok major segs : Forall (encodable major) (waiting segs) ->
  enc_all_grains major segs = (map flush segs, Ok (flat_map (gbytes major) (waiting segs))).
Proof.
  induction segs as [|s segs IH]; intros H; [reflexivity|]. unfold waiting in H. cbn [flat_map] in H.
  apply Forall_app in H as [H1 H2]. fold (waiting segs) in H2. cbn [enc_all_grains map].
  rewrite enc_grain_list_ok.
  2:{ rewrite Forall_map in H1. exact H1. }
  rewrite IH by exact H2. unfold waiting. cbn [flat_map]. fold (waiting segs). rewrite flat_map_app. reflexivity.
Qed.

(** ---------------------------------------------------------------- positions of the counts *)

Lemma enc_segm_len s c c' : zlen (enc_segm s c) = zlen (enc_segm s c').
Proof. unfold enc_segm. rewrite !zlen_app, !enc_sint_len. reflexivity. Qed.

(** Each segment's recorded position is absent or that of its count field, the first segm block being at [start]. *)
Fixpoint placed (start : Z) (segs : list segst) : Prop :=
  match segs with
  | [] => True
  | s :: t => (st_cpos s = -1 \/ st_cpos s = start + count_pos (st_e s)) /\
              placed (start + zlen (enc_segm (st_e s) 0)) t
  end.

Fixpoint all_placed (start : Z) (segs : list segst) : Prop :=
  match segs with
  | [] => True
  | s :: t => st_cpos s = start + count_pos (st_e s) /\ all_placed (start + zlen (enc_segm (st_e s) 0)) t
  end.

Lemma all_placed_placed segs : forall start, all_placed start segs -> placed start segs.
Proof. induction segs as [|s t IH]; intros start; cbn [all_placed placed]; [auto|]. intros [H1 H2]. auto. Qed.

Lemma head_offsets_length segs : forall h, length (head_offsets h segs) = length segs.
Proof. induction segs as [|[s c] t IH]; intros h; cbn [head_offsets length]; [reflexivity|]. now rewrite IH. Qed.

Lemma set_offsets_placed segs c : forall h pos,
  all_placed (pos + h) (set_offsets segs (head_offsets h (with_counts c segs)) pos).
Proof.
  induction segs as [|s t IH]; intros h pos; cbn [with_counts map head_offsets set_offsets all_placed]; [exact I|].
  cbn [st_cpos st_e]. split; [lia|].
  replace (pos + h + zlen (enc_segm (st_e s) 0)) with (pos + (h + zlen (enc_segm (st_e s) (c s)))).
  - apply IH.
  - rewrite (enc_segm_len _ (c s) 0). lia.
Qed.

Lemma set_offsets_map {B} (f : segst -> B) : (forall s p, f (mkSt (st_e s) (st_wc s) p (st_active s) (st_grains s) (st_parent s)) = f s) ->
  forall segs offs pos, map f (set_offsets segs offs pos) = map f segs.
Proof.
  intros H. induction segs as [|s t IH]; intros offs pos; destruct offs as [|o os]; cbn [set_offsets map]; try reflexivity.
  now rewrite H, IH.
Qed.

Lemma set_offsets_waiting segs offs pos : waiting (set_offsets segs offs pos) = waiting segs.
Proof.
  revert offs; induction segs as [|s t IH]; intros offs; destruct offs as [|o os]; cbn [set_offsets]; try reflexivity.
  unfold waiting in *. cbn [flat_map]. rewrite IH. reflexivity.
Qed.

Definition segs_bytes (l : list (eseg * Z)) : bytes := flat_map (fun sc => enc_segm (fst sc) (snd sc)) l.

Definition recount (c : segst -> Z) (s : segst) : Z := if st_cpos s =? -1 then c s else st_wc s.

Lemma count_pos_nonneg s : 0 <= count_pos s.
Proof. apply zlen_nonneg. Qed.

Lemma patch_counts_ok segs : forall c a b o, o_seek o = true ->
  o_data o = a ++ segs_bytes (with_counts c segs) ++ b -> placed (zlen a) segs ->
  patch_counts segs o = mkOut (a ++ segs_bytes (with_counts (recount c) segs) ++ b) (o_pos o) true.
Proof.
  induction segs as [|s t IH]; intros c a b o HS HD HP; cbn [patch_counts].
  - destruct o as [d p sk]. cbn [o_data o_seek o_pos] in *. subst. reflexivity.
  - cbn [placed] in HP. destruct HP as [HC HP]. rewrite HS. cbn [andb].
    unfold with_counts in HD |- *. cbn [map] in HD |- *. unfold segs_bytes in HD |- *. cbn [flat_map fst snd] in HD |- *.
    fold (with_counts c t) in HD. fold (with_counts (recount c) t).
    fold (segs_bytes (with_counts c t)) in HD. fold (segs_bytes (with_counts (recount c) t)).
    pose proof (zlen_nonneg a) as Ha. pose proof (count_pos_nonneg (st_e s)) as Hc.
    unfold recount at 1. destruct (st_cpos s =? -1) eqn:EC; cbn [negb].
    + rewrite (IH c (a ++ enc_segm (st_e s) (c s)) b o HS).
      * rewrite <- !app_assoc. reflexivity.
      * rewrite HD. rewrite <- !app_assoc. reflexivity.
      * rewrite zlen_app, (enc_segm_len _ (c s) 0). exact HP.
    + destruct HC as [HC|HC]; [lia|].
      set (suffix := enc_flow (es_flow (st_e s)) ++ flat_map enc_tag (es_tags (st_e s))).
      assert (forall x, enc_segm (st_e s) x = enc_segm_prefix (st_e s) ++ enc_sint 8 x ++ suffix) as ES by reflexivity.
      rewrite (o_write_mid (o_seek_to o (st_cpos s)) (a ++ enc_segm_prefix (st_e s)) (enc_sint 8 (c s))
                 (suffix ++ segs_bytes (with_counts c t) ++ b) (enc_sint 8 (st_wc s))).
      * cbn [o_seek_to o_data o_seek o_pos].
        rewrite (IH c (a ++ enc_segm (st_e s) (st_wc s)) b).
        -- cbn [o_pos]. rewrite <- !app_assoc. reflexivity.
        -- reflexivity.
        -- cbn [o_data]. rewrite ES, <- !app_assoc. reflexivity.
        -- rewrite zlen_app, (enc_segm_len _ (st_wc s) 0). exact HP.
      * exact HS.
      * cbn [o_seek_to o_data]. rewrite HD, ES, <- !app_assoc. reflexivity.
      * cbn [o_seek_to o_pos]. rewrite zlen_app. exact HC.
      * rewrite !enc_sint_len. reflexivity.
Qed.

Lemma patch_counts_unseekable segs o : o_seek o = false -> patch_counts segs o = o.
Proof. intros H. induction segs as [|s t IH]; cbn [patch_counts]; [reflexivity|]. rewrite H. exact IH. Qed.

(** Segments without a recorded position are left alone. *)
Lemma patch_counts_app a : forall b o, patch_counts (a ++ b) o = patch_counts b (patch_counts a o).
Proof. induction a as [|s a IH]; intros b o; cbn [app patch_counts]; [reflexivity|]. apply IH. Qed.

Lemma patch_counts_none segs o : Forall (fun s => st_cpos s = -1) segs -> patch_counts segs o = o.
Proof.
  intros H; induction H as [|s t Hs Ht IH]; cbn [patch_counts]; [reflexivity|]. rewrite Hs.
  rewrite andb_false_r. exact IH.
Qed.

(** ---------------------------------------------------------------- starting a dump *)

Lemma enc_head_prefix_len id created segs tags : zlen (enc_head_prefix id created segs tags) = 15 + zlen id.
Proof. unfold enc_head_prefix, enc_uuid. rewrite !zlen_app, enc_uint_len, enc_datetime_len. change (zlen T_head) with 4. lia. Qed.

Lemma enc_file_header_len major minor : zlen (enc_file_header major minor) = 12.
Proof. unfold enc_file_header. rewrite !zlen_app, !enc_uint_len. reflexivity. Qed.

(** Where the first segm block of a file is. *)
Definition segs_start (e : enc) : Z := 27 + zlen (e_id e).

(** The segments after starting a dump. *)
Definition placed_segs (e : enc) (all_at_once : bool) : list segst :=
  if negb all_at_once && o_seek (e_out e)
  then set_offsets (map activate (e_segs e)) (head_offsets (15 + zlen (e_id e)) (with_counts (header_count all_at_once) (e_segs e))) 12
  else map activate (e_segs e).

Definition reset_out (o : ofile) : ofile := if o_seek o then mkOut [] 0 true else o.

Lemma waiting_activate segs : waiting (map activate segs) = waiting segs.
Proof. unfold waiting. induction segs as [|s t IH]; [reflexivity|]. cbn [map flat_map]. rewrite IH. reflexivity. Qed.

Lemma waiting_placed e aao : waiting (placed_segs e aao) = waiting (e_segs e).
Proof. unfold placed_segs. destruct (_ && _); rewrite ?set_offsets_waiting; apply waiting_activate. Qed.

Lemma start_dump_eq e n aao :
  start_dump e n aao =
  let e1 := set_active e n true in
  match enc_all_grains (e_major e) (placed_segs e aao) with
  | (segs3, Err x) => (set_out (set_segs e1 segs3) (reset_out (e_out e)), Err x)
  | (segs3, Ok bs) =>
      (set_out (set_segs e1 segs3)
         (o_write (reset_out (e_out e))
            (enc_file_header (e_major e) (e_minor e) ++
             enc_head (e_id e) (e_created e) (with_counts (header_count aao) (e_segs e)) (e_tags e) ++ bs)), done)
  end.
Proof.
  unfold start_dump. cbv zeta. unfold set_active, set_sess.
  cbn [e_out e_major e_minor e_segs e_id e_created e_tags].
  fold (with_counts (header_count aao) (e_segs e)).
  assert ((if o_seek (e_out e) then o_truncate (o_seek_to (e_out e) 0) else e_out e) = reset_out (e_out e)) as ->.
  { unfold reset_out, o_truncate, o_seek_to. cbn [o_data o_pos o_seek]. destruct (o_seek (e_out e)) eqn:E; [|reflexivity].
    f_equal. destruct (o_data (e_out e)); reflexivity. }
  rewrite enc_head_prefix_len, enc_file_header_len.
  assert (o_seek (reset_out (e_out e)) = o_seek (e_out e)) as ->.
  { unfold reset_out. destruct (o_seek (e_out e)) eqn:E; [reflexivity|exact E]. }
  unfold placed_segs. destruct (negb aao && o_seek (e_out e)) eqn:E; [|reflexivity].
  apply andb_true_iff in E as [_ E]. unfold reset_out. rewrite E. reflexivity.
Qed.

Definition started (e : enc) (n : nat) (aao : bool) : enc :=
  set_out (set_segs (set_active e n true) (map flush (placed_segs e aao)))
    (o_append (reset_out (e_out e))
       (file_so_far e (with_counts (header_count aao) (e_segs e)) (e_tags e) (waiting (e_segs e)))).

Lemma at_end_reset o : at_end (reset_out o).
Proof. unfold at_end, reset_out. destruct (o_seek o) eqn:E; cbn [o_seek o_pos o_data]; [reflexivity|congruence]. Qed.

Lemma start_dump_ok e n aao : Forall (encodable (e_major e)) (waiting (e_segs e)) ->
  start_dump e n aao = (started e n aao, done).
Proof.
  intros H. rewrite start_dump_eq. cbv zeta. rewrite enc_all_grains_ok; rewrite waiting_placed; [|exact H].
  unfold started. rewrite o_write_append by apply at_end_reset. reflexivity.
Qed.

(** Fields of the segments after starting. *)
Lemma placed_segs_map {B} (f : segst -> B) e aao :
  (forall s p, f (mkSt (st_e s) (st_wc s) p true (st_grains s) (st_parent s)) = f s) ->
  map f (placed_segs e aao) = map f (e_segs e).
Proof.
  intros H. unfold placed_segs.
  assert (map f (map activate (e_segs e)) = map f (e_segs e)) as E.
  { rewrite map_map. apply map_ext. intros s. unfold activate. apply H. }
  destruct (_ && _); [|exact E].
  rewrite <- E. generalize (head_offsets (15 + zlen (e_id e)) (with_counts (header_count aao) (e_segs e))).
  induction (e_segs e) as [|s t IH]; intros offs; destruct offs as [|o os]; cbn [map set_offsets]; try reflexivity.
  unfold activate at 1 2 3 4 5. cbn [st_e st_wc st_active st_grains st_parent]. rewrite H.
  cbn [map] in E. injection E as E1 E2. unfold activate at 2. rewrite H. f_equal. rewrite IH by exact E2. reflexivity.
Qed.

Lemma with_counts_flush c c' segs : (forall s, c (flush s) = c' s) -> with_counts c (map flush segs) = with_counts c' segs.
Proof. intros H. unfold with_counts. rewrite map_map. apply map_ext. intros s. rewrite H. reflexivity. Qed.

Lemma placed_flush segs : forall start, placed start (map flush segs) <-> placed start segs.
Proof. induction segs as [|s t IH]; intros start; cbn [map placed]; [tauto|]. cbn [flush st_cpos st_e]. rewrite IH. tauto. Qed.

Lemma all_placed_flush segs : forall start, all_placed start (map flush segs) <-> all_placed start segs.
Proof. induction segs as [|s t IH]; intros start; cbn [map all_placed]; [tauto|]. cbn [flush st_cpos st_e]. rewrite IH. tauto. Qed.

Lemma placed_activate segs : forall start, placed start (map activate segs) <-> placed start segs.
Proof. induction segs as [|s t IH]; intros start; cbn [map placed]; [tauto|]. cbn [activate st_cpos st_e]. rewrite IH. tauto. Qed.

Lemma with_counts_activate c segs : (forall s, c (activate s) = c s) -> with_counts c (map activate segs) = with_counts c segs.
Proof. intros H. unfold with_counts. rewrite map_map. apply map_ext. intros s. rewrite H. reflexivity. Qed.

Lemma head_offsets_const segs c c' : forall h, head_offsets h (with_counts c segs) = head_offsets h (with_counts c' segs).
Proof.
  induction segs as [|s t IH]; intros h; cbn [with_counts map head_offsets]; [reflexivity|]. f_equal.
  rewrite (enc_segm_len _ (c s) (c' s)). apply IH.
Qed.

Lemma placed_segs_streaming e : o_seek (e_out e) = true -> all_placed (segs_start e) (placed_segs e false).
Proof.
  intros H. unfold placed_segs. rewrite H. cbn [negb andb]. unfold segs_start.
  rewrite <- (with_counts_activate (header_count false)) by reflexivity.
  replace (27 + zlen (e_id e)) with (12 + (15 + zlen (e_id e))) by lia. apply set_offsets_placed.
Qed.

(** ---------------------------------------------------------------- ending a dump *)

Lemma file_so_far_split e segs tags gs :
  file_so_far e segs tags gs =
  (enc_file_header (e_major e) (e_minor e) ++ enc_head_prefix (e_id e) (e_created e) (map fst segs) tags) ++
  segs_bytes segs ++ (flat_map enc_tag tags ++ flat_map (gbytes (e_major e)) gs).
Proof. unfold file_so_far, enc_head, segs_bytes. rewrite <- !app_assoc. reflexivity. Qed.

Lemma map_fst_counts c segs : map fst (with_counts c segs) = map st_e segs.
Proof. unfold with_counts. rewrite map_map. reflexivity. Qed.

(** Patching the counts of a file. *)
Lemma patch_file e segs c tags gs o : o_seek o = true ->
  o_data o = file_so_far e (with_counts c segs) tags gs -> placed (segs_start e) segs ->
  patch_counts segs o = mkOut (file_so_far e (with_counts (recount c) segs) tags gs) (o_pos o) true.
Proof.
  intros HS HD HP. rewrite file_so_far_split in HD. rewrite (patch_counts_ok segs c _ _ o HS HD).
  - rewrite file_so_far_split, !map_fst_counts. reflexivity.
  - rewrite zlen_app, enc_file_header_len, enc_head_prefix_len.
    unfold segs_start in HP. replace (12 + (15 + zlen (e_id e))) with (27 + zlen (e_id e)) by lia. exact HP.
Qed.
