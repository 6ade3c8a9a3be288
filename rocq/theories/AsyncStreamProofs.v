(** The stream wrapper does what the specification says. *)
From Verif Require Import Base BaseProofs AsyncBytes AsyncBytesSpec AsyncBytesProofs AsyncStream AsyncStreamSpec.
From Coq Require Import ZifyBool ZifyNat.
Ltac Zify.zify_post_hook ::= Z.div_mod_to_equations.

(** ------------------------------------------------------------------ reading *)

Definition irel (all : bytes) (a : astream) (s : spot) : Prop :=
  as_in a = Some (zskip (as_pos a) all) /\ as_out a = None /\ 0 <= as_pos a /\ sp_mark s = as_pos a /\
  sp_pos s = Z.max (as_pos a) (as_next a).

Lemma irel_align all a s : irel all a s ->
  as_align a = mkAs (Some (zskip (sp_pos s) all)) None (sp_pos s) (as_next a).
Proof.
  intros (H1 & H2 & H3 & H4 & H5). unfold as_align. destruct (Z.ltb_spec (as_pos a) (as_next a)) as [L|L].
  - unfold as_take, as_emit, as_at. rewrite H1. destruct (Z.ltb_spec (as_next a - as_pos a) 0) as [L2|L2]; [lia|].
    cbn [as_in as_out as_pos as_next]. rewrite H2, zskip_zskip by lia.
    replace (as_pos a + (as_next a - as_pos a)) with (sp_pos s) by lia. replace (as_next a) with (sp_pos s) at 1 by lia. reflexivity.
  - destruct a as [r w p n]. cbn [as_in as_out as_pos as_next] in *. rewrite H1, H2. replace (sp_pos s) with p by lia. reflexivity.
Qed.

Lemma take_in all p n s : 0 <= p -> as_take (mkAs (Some (zskip p all)) None p n) s =
  let d := if s <? 0 then zskip p all else zfirst s (zskip p all) in
  (mkAs (Some (zskip (p + zlen d) all)) None p n, d).
Proof.
  intros HP. unfold as_take. cbn [as_in as_out as_pos as_next]. pose proof (zlen_zskip p all HP) as EL. pose proof (zlen_nonneg all).
  destruct (Z.ltb_spec s 0) as [L|L]; cbv zeta; do 2 f_equal; f_equal.
  - symmetry. apply zskip_all. lia.
  - rewrite zskip_zskip by lia. rewrite zlen_zfirst by lia.
    destruct (Z_le_gt_dec s (zlen (zskip p all))) as [L2|L2]; [f_equal; lia|]. rewrite !zskip_all by lia. reflexivity.
Qed.

Lemma zskip_zeros_len (d : bytes) n : zlen d <= n -> zskip (zlen d) (zeros (Z.to_nat n)) = zeros (Z.to_nat (n - zlen d)).
Proof. intros H. pose proof (zlen_nonneg d). apply zskip_zeros; lia. Qed.

Lemma seek_same all a s offset w : irel all a s ->
  snd (as_seek a offset w) = snd (to_spot s offset w) /\ irel all (fst (as_seek a offset w)) (fst (to_spot s offset w)).
Proof.
  intros (H1 & H2 & H3 & H4 & H5). unfold as_seek, to_spot, goes.
  destruct w; rewrite ?H4.
  - rewrite Z.ltb_antisym. destruct (Z.leb_spec (as_pos a) offset); cbn [negb fst snd]; split; try reflexivity; repeat split; unfold as_at, as_emit; cbn [as_in as_out as_pos as_next sp_pos sp_mark]; try assumption; lia.
  - replace (if as_pos a <? as_next a then as_next a else as_pos a) with (sp_pos s) by (destruct (Z.ltb_spec (as_pos a) (as_next a)); lia).
    rewrite Z.ltb_antisym. destruct (Z.leb_spec (as_pos a) (sp_pos s + offset)); cbn [negb fst snd]; split; try reflexivity; repeat split; unfold as_at, as_emit; cbn [as_in as_out as_pos as_next sp_pos sp_mark]; try assumption; lia.
  - split; [reflexivity|]. repeat split; assumption.
Qed.

Lemma in_same all a s o : irel all a s -> not_readall o ->
  snd (as_step a o) = snd (in_step all s o) /\ irel all (fst (as_step a o)) (fst (in_step all s o)).
Proof.
  intros R HN. pose proof R as (H1 & H2 & H3 & H4 & H5). assert (0 <= sp_pos s) as HP by lia.
  destruct o as [n|n| |d|n| |offset w]; cbn [as_step in_step].
  - unfold as_read. rewrite H1, (irel_align all a s R), take_in by exact HP. cbv zeta. set (d := if n <? 0 then _ else _).
    pose proof (zlen_nonneg d). unfold as_at; cbn [as_in as_out as_pos as_next fst snd rbind]. split; [reflexivity|].
    repeat split; unfold as_at, as_emit; cbn [as_in as_out as_pos as_next sp_pos sp_mark]; try reflexivity; lia.
  - destruct (Z.ltb_spec n 0) as [L|L]; [split; [reflexivity|exact R]|].
    rewrite H1, (irel_align all a s R), take_in by exact HP. cbv zeta. replace (n <? 0) with false by lia.
    set (d := zfirst n _). pose proof (zlen_nonneg d).
    assert (zlen d <= n) by (unfold d; rewrite zlen_zfirst by lia; lia).
    unfold as_at; cbn [as_in as_out as_pos as_next fst snd rbind]. rewrite zskip_zeros_len by assumption. split; [reflexivity|].
    repeat split; unfold as_at, as_emit; cbn [as_in as_out as_pos as_next sp_pos sp_mark]; try reflexivity; lia.
  - now contradiction HN.
  - rewrite H2. split; [reflexivity|exact R].
  - split; [reflexivity|exact R].
  - cbn [fst snd]. split; [|exact R]. destruct (Z.ltb_spec (as_pos a) (as_next a)); do 2 f_equal; lia.
  - apply seek_same, R.
Qed.

Lemma in_run_same all ops : forall a s, irel all a s -> Forall not_readall ops ->
  snd (as_run a ops) = snd (in_run all s ops) /\ irel all (fst (as_run a ops)) (fst (in_run all s ops)).
Proof.
  induction ops as [|o ops IH]; intros a s R HN; [split; [reflexivity|exact R]|]. cbn [as_run in_run].
  destruct (in_same all a s o R (Forall_inv HN)) as [E R1].
  destruct (as_step a o) as [a1 r]. destruct (in_step all s o) as [s1 r']. cbn [fst snd] in *. subst r'.
  destruct (IH a1 s1 R1 (Forall_inv_tail HN)) as [E2 R2]. destruct (as_run a1 ops) as [a2 rs]. destruct (in_run all s1 ops) as [s2 rs'].
  cbn [fst snd] in *. subst rs'. auto.
Qed.

Theorem stream_reads all ops : Forall not_readall ops ->
  snd (as_run (as_new (Some all) None) ops) = snd (in_run all (mkSpot 0 0) ops).
Proof.
  intros HN. apply in_run_same; [|exact HN].
  repeat split; cbn [as_new as_in as_out as_pos as_next sp_pos sp_mark]; try lia. now rewrite zskip_le0 by lia.
Qed.

(** Reading everything, as the first thing not allowed above, still gives the right bytes. *)
Theorem stream_readall all ops : Forall not_readall ops ->
  snd (as_step (fst (as_run (as_new (Some all) None) ops)) SReadAll) =
  snd (in_step all (fst (in_run all (mkSpot 0 0) ops)) SReadAll).
Proof.
  intros HN. destruct (in_run_same all ops (as_new (Some all) None) (mkSpot 0 0)) as [_ R]; [|exact HN|].
  { repeat split; cbn [as_new as_in as_out as_pos as_next sp_pos sp_mark]; try lia. now rewrite zskip_le0 by lia. }
  set (a := fst (as_run _ _)) in *. set (s := fst (in_run _ _ _)) in *.
  pose proof R as (H1 & H2 & H3 & H4 & H5). cbn [as_step in_step]. unfold as_read.
  rewrite H1, (irel_align all a s R), take_in by lia. reflexivity.
Qed.

(** ------------------------------------------------------------------ writing *)

Definition orel (a : astream) (c : bytes) (pos : Z) : Prop :=
  as_in a = None /\ as_out a = Some c /\ as_pos a = zlen c /\ pos = Z.max (as_pos a) (as_next a).

Lemma overwrite_end c pos d : zlen c <= pos -> overwrite c pos d = c ++ zeros (Z.to_nat (pos - zlen c)) ++ d.
Proof.
  intros H. unfold overwrite. pose proof (zlen_nonneg c). pose proof (zlen_nonneg d). rewrite zfirst_all, zskip_all by lia.
  now rewrite app_nil_r.
Qed.

Lemma orel_align a c pos : orel a c pos ->
  as_align a = mkAs None (Some (c ++ zeros (Z.to_nat (pos - zlen c)))) pos (as_next a).
Proof.
  intros (H1 & H2 & H3 & H4). unfold as_align. destruct (Z.ltb_spec (as_pos a) (as_next a)) as [L|L].
  - unfold as_take, as_emit, as_at. rewrite H1. cbn [as_in as_out as_pos as_next]. rewrite H1, H2, H3.
    replace (as_next a) with pos by lia. reflexivity.
  - destruct a as [r w p n]. cbn [as_in as_out as_pos as_next] in *. rewrite H1, H2. replace pos with p by lia.
    replace (Z.to_nat (p - zlen c)) with 0%nat by lia. cbn [zeros repeat]. now rewrite app_nil_r.
Qed.

Lemma out_same a c pos o : orel a c pos ->
  let '(c1, p1, r) := out_step c pos o in snd (as_step a o) = r /\ orel (fst (as_step a o)) c1 p1.
Proof.
  intros R. pose proof R as (H1 & H2 & H3 & H4). pose proof (zlen_nonneg c).
  destruct o as [n|n| |d|n| |offset w]; cbn [as_step out_step]; unfold as_read; rewrite ?H1.
  - split; [reflexivity|exact R].
  - destruct (n <? 0); split; try reflexivity; exact R.
  - split; [reflexivity|exact R].
  - rewrite H2, (orel_align a c pos R). unfold as_emit, as_at. cbn [as_in as_out as_pos as_next fst snd]. split; [reflexivity|].
    pose proof (zlen_nonneg d). rewrite overwrite_end by lia.
    repeat split; unfold as_at, as_emit; cbn [as_in as_out as_pos as_next].
    + now rewrite <- app_assoc.
    + rewrite !zlen_app, zlen_zeros by lia. lia.
    + lia.
  - split; [reflexivity|exact R].
  - cbn [fst snd]. split; [|exact R]. destruct (Z.ltb_spec (as_pos a) (as_next a)); do 2 f_equal; lia.
  - unfold as_seek, to_spot, goes. cbn [sp_pos sp_mark].
    destruct w; rewrite ?H3.
    + rewrite Z.ltb_antisym. destruct (Z.leb_spec (zlen c) offset); cbn [negb fst snd sp_pos]; split; try reflexivity; repeat split; unfold as_at, as_emit; cbn [as_in as_out as_pos as_next sp_pos sp_mark]; try assumption; lia.
    + replace (if zlen c <? as_next a then as_next a else zlen c) with pos by (destruct (Z.ltb_spec (zlen c) (as_next a)); lia).
      rewrite Z.ltb_antisym. destruct (Z.leb_spec (zlen c) (pos + offset)); cbn [negb fst snd sp_pos]; split; try reflexivity; repeat split; unfold as_at, as_emit; cbn [as_in as_out as_pos as_next sp_pos sp_mark]; try assumption; lia.
    + cbn [fst snd sp_pos]. split; [reflexivity|exact R].
Qed.

Lemma out_run_same ops : forall a c pos, orel a c pos ->
  let '(c1, p1, rs) := out_run c pos ops in snd (as_run a ops) = rs /\ orel (fst (as_run a ops)) c1 p1.
Proof.
  induction ops as [|o ops IH]; intros a c pos R; [split; [reflexivity|exact R]|]. cbn [as_run out_run].
  pose proof (out_same a c pos o R) as H. destruct (out_step c pos o) as [[c1 p1] r]. destruct (as_step a o) as [a1 r'].
  cbn [fst snd] in H. destruct H as [-> R1]. specialize (IH a1 c1 p1 R1). destruct (out_run c1 p1 ops) as [[c2 p2] rs].
  destruct (as_run a1 ops) as [a2 rs']. cbn [fst snd] in *. destruct IH as [-> R2]. auto.
Qed.

Theorem stream_writes ops :
  let '(c, pos, rs) := out_run [] 0 ops in
  snd (as_run (as_new None (Some [])) ops) = rs /\ as_out (fst (as_run (as_new None (Some [])) ops)) = Some c.
Proof.
  pose proof (out_run_same ops (as_new None (Some [])) [] 0) as H. destruct (out_run [] 0 ops) as [[c pos] rs].
  destruct H as [E (H1 & H2 & H3 & H4)]; [repeat split|]. auto.
Qed.
