(** Files written by the encoder are well-formed and decode to what was put in. *)
From Verif Require Import Base BaseProofs Utf8 Utf8Proofs GsfPrim GsfPrimProofs GsfBlock GsfBlockProofs
  GsfDecode CogEnums GsfEncode GsfSpec GsfCodecProofs GsfEncodeProofs GsfFileSpec GsfFileProofs GsfFileFacts GsfEncState GsfEncSpec
  GsfEncStateProofs GsfEncSession GsfEncInv GsfEncFile GsfEncDecodeSpec.
From Coq Require Import ZifyBool ZifyNat.
Ltac Zify.zify_post_hook ::= Z.div_mod_to_equations.

Lemma seg_fits_uuids s : seg_fits s -> eseg_uuids s.
Proof.
  intros (_ & (H & _) & _ & HF). split; [exact H|]. destruct (es_flow s) as [x|]; [|exact I].
  destruct HF as (t & (H1 & _) & (H2 & _) & _). auto.
Qed.

Lemma segm_payload s c : seg_fits s -> i64 c ->
  exists sg, SegmPayload s c (snd (segm_block (s, c))) sg /\ seg_seen (s, c) sg.
Proof.
  intros (H1 & H2 & H3 & H4) HC.
  assert (exists fl, FlowOf (es_flow s) fl) as [fl HF].
  { destruct (es_flow s) as [x|]; [destruct H4 as [t H4]|]; eexists; [apply FO_some, H4|apply FO_none]. }
  exists (mkSegm (es_local s) (es_id s) c fl (es_tags s)). split; [|repeat split; exact HF].
  unfold segm_block. cbn [fst snd]. unfold segm_fixed. rewrite <- !app_assoc.
  apply SP_intro; try assumption. apply Interleave_refl.
Qed.

Lemma segm_blocks l : Forall (fun sc => seg_fits (fst sc) /\ i64 (snd sc)) l ->
  exists sl, SegmBlocks l (map segm_block l) sl /\ Forall2 seg_seen l sl.
Proof.
  intros H. induction H as [|[s c] l [H1 H2] HL (sl & IH1 & IH2)]; [exists []; split; constructor|].
  destruct (segm_payload s c H1 H2) as (sg & P1 & P2). exists (sg :: sl). split; [|constructor; assumption].
  cbn [map]. unfold segm_block at 1. cbn [fst snd]. constructor; assumption.
Qed.

Lemma enc_head_len_counts id created c c' segs tags :
  zlen (enc_head id created (with_counts c segs) tags) = zlen (enc_head id created (with_counts c' segs) tags).
Proof.
  unfold enc_head. rewrite !map_fst_counts, !zlen_app. f_equal. f_equal. apply (segs_bytes_len c c').
Qed.

Lemma zlen_enc_block t pl : zlen t = 4 -> zlen (enc_block t pl) = 8 + zlen pl.
Proof. intros H. unfold enc_block. rewrite !zlen_app, H, enc_uint_len. lia. Qed.

Lemma head_wellformed e c : head_fits e -> Forall (fun s => i64 (c s)) (e_segs e) ->
  exists hpl segms,
    enc_head (e_id e) (e_created e) (with_counts c (e_segs e)) (e_tags e) = enc_block T_head hpl /\
    header_ok (e_major e) (e_minor e) [] hpl (mkHead (e_id e) (e_created e) segms (e_tags e)) /\
    Forall2 seg_seen (with_counts c (e_segs e)) segms.
Proof.
  intros (H1 & H2 & H3 & H4 & H5 & H6 & H7) HC. rewrite (enc_head_len_counts _ _ _ c) in H7.
  assert (Forall (fun sc => seg_fits (fst sc) /\ i64 (snd sc)) (with_counts c (e_segs e))) as HS.
  { apply Forall_map. rewrite Forall_forall in *. intros s HI. split; [apply H6|apply HC]; exact HI. }
  destruct (segm_blocks _ HS) as (segms & S1 & S2).
  assert (enc_head (e_id e) (e_created e) (with_counts c (e_segs e)) (e_tags e) =
          enc_block T_head (enc_uuid (e_id e) ++ enc_datetime (e_created e) ++ blocks (head_children (with_counts c (e_segs e)) (e_tags e)))) as EH.
  { apply enc_head_block; [apply H3|]. eapply Forall_impl; [|exact HS]. intros sc [X _]. apply seg_fits_uuids, X. }
  eexists; exists segms. split; [exact EH|]. split; [|exact S2]. unfold header_ok. split; [exact H1|]. split; [exact H2|].
  split; [constructor|]. split; [constructor|]. split.
  - rewrite EH in H7. rewrite zlen_enc_block in H7 by reflexivity. unfold small_payload. exact H7.
  - exists (e_id e), (e_created e), (with_counts c (e_segs e)), (e_tags e). apply (HP_intro _ _ _ _ (map segm_block (with_counts c (e_segs e)))); try assumption.
    apply Interleave_refl.
Qed.

Lemma grains_wellformed major gs tail : Forall (grain_fits major) gs -> Pieces major tail ->
  exists ps, flat_map (gbytes major) gs = pieces_bytes ps /\ Pieces major (ps ++ tail) /\
    (forall b, contents b major (ps ++ tail) = map (grain_seen major) gs ++ contents b major tail) /\
    (forall b s, final_sess b s (ps ++ tail) = final_sess b s tail).
Proof.
  intros H HT. induction H as [|[l g] gs (H1 & H2 & H3) HG (ps & I1 & I2 & I3 & I4)].
  - exists []. repeat split; auto.
  - cbn [fst snd] in *. destruct (enc_grain_ok major l g H2) as [bs Hbs].
    destruct (enc_grain_payload major l g bs H2 Hbs) as (pl & off & E & HP).
    assert (gbytes major (l, g) = bs) as EG by (unfold gbytes; cbn [fst snd]; now rewrite Hbs).
    exists (PGrain l g pl off :: ps). cbn [flat_map map]. rewrite EG, E in *. split; [|split; [|split]].
    + unfold pieces_bytes in *. cbn [flat_map piece_bytes]. rewrite I1. reflexivity.
    + cbn [app]. constructor; try assumption. unfold small_payload. rewrite zlen_enc_block in H3 by reflexivity. exact H3.
    + intros b. cbn [app contents]. rewrite I3. reflexivity.
    + intros b s. cbn [app final_sess]. apply I4.
Qed.

Lemma reads_back_file e c gs tail : head_fits e -> Forall (fun s => i64 (c s)) (e_segs e) ->
  Forall (grain_fits (e_major e)) gs -> (tail = [] \/ tail = [PEnd]) ->
  reads_as e c gs (file_so_far e (with_counts c (e_segs e)) (e_tags e) gs ++ pieces_bytes tail).
Proof.
  intros HH HC HG HT. destruct (head_wellformed e c HH HC) as (hpl & segms & EH & HO & HS).
  assert (Pieces (e_major e) tail) as HPT by (destruct HT as [-> | ->]; repeat constructor).
  destruct (grains_wellformed (e_major e) gs tail HG HPT) as (ps & EP & HP & EC & EF).
  exists segms. split; [exact HS|]. intros k strict fwd s.
  set (x := mkGsf (e_major e) (e_minor e) [] hpl (mkHead (e_id e) (e_created e) segms (e_tags e)) (ps ++ tail)).
  assert (file_so_far e (with_counts c (e_segs e)) (e_tags e) gs ++ pieces_bytes tail = gsf_bytes x) as ->.
  { unfold file_so_far, gsf_bytes, x. cbn [gf_major gf_minor gf_pre gf_head_payload gf_pieces].
    rewrite EH, EP, pieces_bytes_app. unfold enc_file_header, header_bytes. change (blocks []) with (@nil Z). cbn [app].
    rewrite <- !app_assoc. reflexivity. }
  destruct (decode_contents k x [] strict fwd) as (l & D1 & D2 & D3); [split; assumption|congruence|].
  rewrite app_nil_r in D1, D2, D3. exists l. rewrite D1. split; [|split; [|exact D3]].
  - unfold x, gsf_sess. cbn [gf_major gf_minor gf_head gf_pieces]. rewrite EF.
    destruct HT as [-> | ->]; cbn [final_sess]; [|destruct (k_concat k)]; reflexivity.
  - rewrite D2. unfold x. cbn [gf_major gf_pieces]. rewrite EC.
    assert (contents (k_concat k) (e_major e) tail = []) as ->
      by (destruct HT as [-> | ->]; cbn [contents]; [|destruct (k_concat k)]; reflexivity).
    rewrite app_nil_r. reflexivity.
Qed.

(** A complete file and one being streamed read as their contents. *)
Theorem complete_reads e c gs : head_fits e -> Forall (fun s => i64 (c s)) (e_segs e) -> Forall (grain_fits (e_major e)) gs ->
  reads_as e c gs (complete_file e (with_counts c (e_segs e)) (e_tags e) gs).
Proof. intros HH HC HG. exact (reads_back_file e c gs [PEnd] HH HC HG (or_intror eq_refl)). Qed.

Theorem so_far_reads e c gs : head_fits e -> Forall (fun s => i64 (c s)) (e_segs e) -> Forall (grain_fits (e_major e)) gs ->
  reads_as e c gs (file_so_far e (with_counts c (e_segs e)) (e_tags e) gs).
Proof.
  intros HH HC HG. pose proof (reads_back_file e c gs [] HH HC HG (or_introl eq_refl)) as H.
  change (pieces_bytes []) with (@nil Z) in H. rewrite app_nil_r in H. exact H.
Qed.
