(** The grains made of frames, and statements as they are used in PropsH264.v. *)
From Coq Require Import Lia ZifyBool ZifyNat.
From Verif Require Import Base BaseProofs PatternTime PatternSpec PatternTimeProofs Wrap WrapSpec WrapProofs AdtsProofs H264 H264Spec H264StreamSpec
  H264BitsProofs H264SetsProofs H264RbspProofs H264TruncProofs H264FramesProofs H264UnitProofs H264StreamProofs H264MainProofs.
Ltac Zify.zify_post_hook ::= Z.div_mod_to_equations.

Lemma emit_grains : forall k t, clock_ok k -> slow (ht_rate t) -> forall fs c,
  map (fun g => (wg_data g, hm_offsets (wg_template g), hm_key (wg_template g))) (h264_emit k t c fs) =
    map (fun f : h264_frame => (fst (fst f), snd (fst f), option_map fi_key (snd f))) fs /\
  Forall (fun g => hm_template (wg_template g) = t) (h264_emit k t c fs) /\
  map wg_origin (h264_emit k t c fs) = map (grid k (ht_rate t)) (between c (c + zlen fs)).
Proof.
  intros k t K S. induction fs as [|[[d o] i] fs IH]; intros c; cbn [h264_emit map].
  - rewrite zlen_nil, Z.add_0_r. unfold between. rewrite Z.sub_diag. repeat split. constructor.
  - destruct (IH (c + 1)) as (I1 & I2 & I3). rewrite zlen_cons. pose proof (zlen_nonneg fs).
    rewrite between_cons by lia. cbn [map wg_data wg_template wg_origin hm_offsets hm_key fst snd].
    split; [now rewrite I1|]. split; [constructor; [reflexivity|exact I2]|].
    rewrite I3. replace (c + 1 + zlen fs) with (c + (1 + zlen fs)) by lia. f_equal.
    unfold normalise. fold (grid k (ht_rate t) c). rewrite count_grid by assumption. reflexivity.
Qed.

Lemma grains_frames : forall St k first (read : reader St) t origin st fuel f fs e, clock_ok k ->
  h264_frames read st (mkPs [] []) [] None true fuel = (f :: fs, e) -> let t' := h264_update t (snd f) in slow (ht_rate t') ->
  exists gs, h264_grains k first read t origin st fuel = (gs, e) /\
    map (fun g => (wg_data g, hm_offsets (wg_template g), hm_key (wg_template g))) gs =
      map (fun f : h264_frame => (fst (fst f), snd (fst f), option_map fi_key (snd f))) (f :: fs) /\
    Forall (fun g => hm_template (wg_template g) = t') gs /\
    origins_from k (ht_rate t') (first (normalise k origin (ht_rate t')) (ht_rate t')) gs.
Proof.
  intros St k first read t origin st fuel [[d o] i] fs e K H t' S. unfold h264_grains. rewrite H. cbn [snd] in t'. fold t'.
  set (c := first (normalise k origin (ht_rate t')) (ht_rate t')).
  destruct (emit_grains k t' K S ((d, o, i) :: fs) c) as (A & B & C).
  eexists. split; [reflexivity|]. split; [exact A|]. split; [exact B|].
  unfold origins_from. rewrite C. assert (L : zlen (h264_emit k t' c ((d, o, i) :: fs)) = zlen ((d, o, i) :: fs)).
  { apply (f_equal zlen) in A. rewrite !zlen_map in A. exact A. }
  rewrite L. reflexivity.
Qed.

(** No start code stands in the rest of a stream. *)
Lemma findall_none : forall d i, findall 0 0 1 i d = [] -> forall j, ~ stands_at 0 0 1 d j.
Proof.
  induction d as [|x d IH]; intros i H j (A & B & C); [destruct j; discriminate|].
  rewrite findall_step in H. apply app_eq_nil in H as [H1 H2]. destruct j as [|j].
  - destruct d as [|y [|z d]]; try discriminate. cbn [nth_error] in A, B, C.
    assert (x = 0) by congruence. assert (y = 0) by congruence. assert (z = 1) by congruence. subst. discriminate.
  - apply (IH _ H2 j). repeat split; assumption.
Qed.
Lemma findall_place : forall d i k, In k (findall 0 0 1 i d) <-> exists j, k = i + Z.of_nat j /\ stands_at 0 0 1 d j.
Proof.
  intros d i k. split.
  - intros H. apply findall_in in H as (a & t & -> & ->). exists (length a). split; [reflexivity|]. unfold stands_at.
    rewrite !nth_error_app2 by lia. replace (length a - length a)%nat with O by lia.
    replace (S (length a) - length a)%nat with 1%nat by lia. replace (S (S (length a)) - length a)%nat with 2%nat by lia. repeat split.
  - intros (j & -> & H). revert i j H. induction d as [|x d IH]; intros i j (A & B & C); [destruct j; discriminate|].
    rewrite findall_step. apply in_or_app. destruct j as [|j].
    + left. destruct d as [|y [|z d]]; try discriminate. cbn [nth_error] in A, B, C.
      assert (x = 0) by congruence. assert (y = 0) by congruence. assert (z = 1) by congruence. subst. left. lia.
    + right. replace (i + Z.of_nat (S j)) with ((i + 1) + Z.of_nat j) by lia. apply IH. repeat split; assumption.
Qed.

Lemma conserve : forall src fuel fs e, fragments_ok src -> 3 * zlen (concat src) + 1 < Z.of_nat fuel ->
  h264_frames src_read src (mkPs [] []) [] None true fuel = (fs, e) ->
  e <> Some EFuel /\ Forall (fun f : h264_frame => rising (snd (fst f)) /\ snd (fst f) <> [] /\
    forall k, In k (snd (fst f)) <-> exists j, k = Z.of_nat j /\ stands_at 0 0 1 (fst (fst f)) j) fs /\
  exists rest, concat (map (fun f : h264_frame => fst (fst f)) fs) ++ rest = concat src /\
    (e = None -> forall j, ~ stands_at 0 0 1 rest j).
Proof.
  intros src fuel fs e Fr Hf H.
  apply frames_conserve in H as (A & B & rest & C & D); [|exact Fr|change (zlen (@nil Z)) with 0; lia].
  split; [exact A|]. split.
  - eapply Forall_impl; [|exact B]. cbv beta. intros f (E & N). rewrite E in *. split; [apply findall_rising|]. split; [exact N|].
    intros k. rewrite findall_place. split; intros (j & X & Y); exists j; split; (lia || exact Y).
  - exists rest. split; [exact C|]. intros E. apply (findall_none rest 0 (D E)).
Qed.

Lemma rbsp_unit : forall long b, rbsp (start_prefix long ++ escape 0 b) = Ok b.
Proof. intros long b. rewrite rbsp_strip, strip_escape_all. reflexivity. Qed.
Lemma rbsp_words : forall long q x m, x <> 0 -> (0 < m)%nat ->
  rbsp (start_prefix long ++ escape 0 (q ++ x :: zeros (2 * m)) ++ [3]) = Ok (q ++ x :: zeros (2 * m)).
Proof. intros long q x m Hx Hm. rewrite rbsp_strip, strip_words by assumption. reflexivity. Qed.

Lemma on_unit : forall A (p : parser A) long n v, (forall t, exists t', p (nal_bits n ++ t) = Ok (v, t')) -> on_rbsp (start_prefix long ++ nal_body n) p = Ok v.
Proof.
  intros A p long n v H. unfold on_rbsp. rewrite rbsp_strip. cbn [rbind]. destruct (strip_body n []) as [k K]. rewrite app_nil_r in K. rewrite K.
  rewrite to_bits_app. destruct (to_bits_rbsp (nal_bits n)) as [t ->]. rewrite <- app_assoc. destruct (H (t ++ to_bits (zeros (2 * words_of n) ++ strip k []))) as [t' ->]. reflexivity.
Qed.
Lemma seq_unit : forall long q t, seq_ok q -> on_rbsp (start_prefix long ++ nal_body (SeqU q t)) parse_sps = Ok (sps_of q).
Proof. intros. apply on_unit. intros u. apply sps_seen. assumption. Qed.
Lemma pic_unit : forall long p t, pic_ok p -> readable_groups p -> on_rbsp (start_prefix long ++ nal_body (PicU p t)) parse_pps = Ok (pps_of p).
Proof. intros. apply on_unit. intros u. apply pps_seen; assumption. Qed.
Lemma slice_unit : forall ps long q p s t, holds ps q p (s_pic s) -> seq_ok q -> slice_ok q p s ->
  on_rbsp (start_prefix long ++ nal_body (SliceU q p s t)) (parse_slice_header ps) = Ok (header_of s).
Proof. intros. apply on_unit. intros u. apply slice_seen; assumption. Qed.
Lemma unit_kind : forall long n, below 4 (ref_of n) -> below 32 (type_of n) -> nal_unit_type (start_prefix long ++ nal_body n) = Ok (type_of n).
Proof.
  intros long n Hr Ht. destruct (body_head n (conj Hr Ht)) as [e ->].
  rewrite <- (land_31 (ref_of n) (type_of n) Ht) at 2. destruct long; reflexivity.
Qed.

Lemma update_described t i t' : described t i t' -> t' = h264_update t i.
Proof.
  destruct i as [i|]; cbn [described h264_update]; [|auto]. intros (A & B & C & D & E & F). destruct t' as [w h cw ch r]. cbn [ht_width ht_height ht_coded_width ht_coded_height ht_rate] in *. subst.
  f_equal. destruct (fi_rate i) as [q|]; [exact (E q eq_refl)|exact (F eq_refl)].
Qed.
Lemma described_update t i : described t i (h264_update t i).
Proof.
  destruct i as [i|]; cbn [described h264_update]; [|reflexivity]. cbn [ht_width ht_height ht_coded_width ht_coded_height ht_rate]. repeat (split; [reflexivity|]). split.
  - intros r ->. reflexivity.
  - intros ->. reflexivity.
Qed.
Lemma grains_described : forall St k first (read : reader St) t origin st fuel f fs e t', clock_ok k ->
  h264_frames read st (mkPs [] []) [] None true fuel = (f :: fs, e) -> described t (snd f) t' -> slow (ht_rate t') ->
  exists gs, h264_grains k first read t origin st fuel = (gs, e) /\
    map (fun g => (wg_data g, hm_offsets (wg_template g), hm_key (wg_template g))) gs =
      map (fun f : h264_frame => (fst (fst f), snd (fst f), option_map fi_key (snd f))) (f :: fs) /\
    Forall (fun g => hm_template (wg_template g) = t') gs /\
    origins_from k (ht_rate t') (first (normalise k origin (ht_rate t')) (ht_rate t')) gs.
Proof.
  intros St k first read t origin st fuel f fs e t' K H D S0. apply update_described in D. subst t'. exact (grains_frames St k first read t origin st fuel f fs e K H S0).
Qed.
