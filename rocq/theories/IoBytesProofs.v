(** Proofs about deferred byte strings. *)
From Verif Require Import Base BaseProofs IoBytes IoBytesSpec.
From Coq Require Import ZifyBool ZifyNat.
Ltac Zify.zify_post_hook ::= Z.div_mod_to_equations.

Lemma io_settled ops : forall s l d data pos log,
  let x := mkIo s l (Some d) data pos log in
  snd (io_run x ops) = io_expect s l data (Some d) ops /\
  (io_data (fst (io_run x ops)), io_pos (fst (io_run x ops))) = others data pos ops /\
  io_log (fst (io_run x ops)) = log.
Proof.
  induction ops as [|o ops IH]; intros s l d data pos log; cbv zeta; [auto|].
  destruct o as [| |p|d']; cbn [io_run io_step io_len io_get io_object io_start io_length io_data io_pos io_log rbind io_expect others].
  - specialize (IH s l d data pos log). cbv zeta in IH. destruct (io_run _ ops). cbn [fst snd] in *. destruct IH as (-> & H2 & H3). auto.
  - specialize (IH s l d data pos log). cbv zeta in IH. destruct (io_run _ ops). cbn [fst snd] in *. destruct IH as (-> & H2 & H3). auto.
  - specialize (IH s l d data p log). cbv zeta in IH. destruct (io_run _ ops). cbn [fst snd] in *. destruct IH as (-> & H2 & H3). auto.
  - specialize (IH s l d d' pos log). cbv zeta in IH. destruct (io_run _ ops). cbn [fst snd] in *. destruct IH as (-> & H2 & H3). auto.
Qed.

Lemma io_unsettled ops : forall s l data pos log, 0 <= s -> 0 <= l ->
  let x := mkIo s l None data pos log in
  snd (io_run x ops) = io_expect s l data None ops /\
  (io_data (fst (io_run x ops)), io_pos (fst (io_run x ops))) = others data pos ops /\
  io_log (fst (io_run x ops)) = log ++ io_accesses s l pos ops.
Proof.
  induction ops as [|o ops IH]; intros s l data pos log Hs Hl; cbv zeta; [cbn; rewrite app_nil_r; auto|].
  destruct o as [| |p|d']; cbn [io_run io_step io_len io_get io_object io_start io_length io_data io_pos io_log rbind io_expect others io_accesses].
  - specialize (IH s l data pos log Hs Hl). cbv zeta in IH. destruct (io_run _ ops). cbn [fst snd] in *. destruct IH as (-> & H2 & H3). auto.
  - unfold io_load. cbn [io_start io_length io_data io_pos]. replace (s <? 0) with false by lia. replace (l <? 0) with false by lia.
    cbn [rbind]. unfold io_put. cbn [io_start io_length io_data io_pos io_log]. fold (region data s l).
    pose proof (io_settled ops s l (region data s l) data pos (log ++ [ATellAt; ASeekTo s; AReadN l; ASeekTo pos])) as (H1 & H2 & H3).
    destruct (io_run _ ops). cbn [fst snd] in *. rewrite H1. auto.
  - specialize (IH s l data p log Hs Hl). cbv zeta in IH. destruct (io_run _ ops). cbn [fst snd] in *. destruct IH as (-> & H2 & H3). auto.
  - specialize (IH s l d' pos log Hs Hl). cbv zeta in IH. destruct (io_run _ ops). cbn [fst snd] in *. destruct IH as (-> & H2 & H3). auto.
Qed.

Theorem io_behaves start length data pos ops : 0 <= start -> 0 <= length ->
  let x := fst (io_run (io_new start length data pos) ops) in
  snd (io_run (io_new start length data pos) ops) = io_expect start length data None ops /\
  (io_data x, io_pos x) = others data pos ops /\ io_log x = io_accesses start length pos ops.
Proof. intros Hs Hl. apply (io_unsettled ops start length data pos [] Hs Hl). Qed.

Theorem io_region_length data start length : 0 <= start -> 0 <= length ->
  zlen (region data start length) = length <-> length = 0 \/ start + length <= zlen data.
Proof. intros Hs Hl. unfold region. rewrite zlen_zfirst, zlen_zskip by lia. pose proof (zlen_nonneg data). lia. Qed.

(** An impossible start: every use fails, and the position is still restored. *)
Theorem io_negative_start start length data pos : start < 0 ->
  let (x, r) := io_get (io_new start length data pos) in
  r = Err EValue /\ io_pos x = pos /\ io_object x = None.
Proof. intros H. unfold io_get, io_new, io_load. cbn. replace (start <? 0) with true by lia. auto. Qed.
