(** Proofs about start codes and emulation prevention bytes. *)
From Coq Require Import Lia ZifyBool ZifyNat.
From Verif Require Import Base BaseProofs PatternTime Wrap H264 H264Spec.
Ltac Zify.zify_post_hook ::= Z.div_mod_to_equations.

(** A scanner that counts zeros, up to two. *)
Definition count (k b : Z) : Z := if b =? 0 then Z.min 2 (k + 1) else 0.
Fixpoint strip (k : Z) (d : bytes) : bytes :=
  match d with
  | [] => []
  | b :: d => if (k =? 2) && (b =? 3) then strip 0 d else b :: strip (count k b) d
  end.
Fixpoint clean (k : Z) (d : bytes) : bool :=
  match d with
  | [] => true
  | b :: d => (negb (k =? 2) || (3 <=? b)) && clean (count k b) d
  end.
Definition counts (k : Z) (d : bytes) : Z := fold_left count d k.

Lemma count_range : forall k b, 0 <= k <= 2 -> 0 <= count k b <= 2.
Proof. intros k b H. unfold count. destruct (b =? 0); lia. Qed.

Lemma counts_range : forall d k, 0 <= k <= 2 -> 0 <= counts k d <= 2.
Proof.
  induction d as [|b d IH]; intros k H; unfold counts; cbn [fold_left]; [exact H|].
  apply IH. apply count_range. exact H.
Qed.

Lemma counts_app : forall a b k, counts k (a ++ b) = counts (counts k a) b.
Proof. intros. apply fold_left_app. Qed.

Lemma strip_app : forall a b k, strip k (a ++ b) = strip k a ++ strip (counts k a) b.
Proof.
  induction a as [|x a IH]; intros b k; [reflexivity|].
  cbn [app strip]. unfold counts. cbn [fold_left].
  destruct ((k =? 2) && (x =? 3)) eqn:E.
  - rewrite IH. replace (count k x) with 0; [reflexivity|]. unfold count. replace (x =? 0) with false by lia. reflexivity.
  - rewrite IH. reflexivity.
Qed.

Lemma clean_app : forall a b k, clean k (a ++ b) = clean k a && clean (counts k a) b.
Proof.
  induction a as [|x a IH]; intros b k; [reflexivity|].
  cbn [app clean]. unfold counts. cbn [fold_left]. rewrite IH. rewrite andb_assoc. reflexivity.
Qed.

(** ** findall *)
Lemma findall_step : forall x y z i a t, findall x y z i (a :: t) =
  (match t with b :: c :: _ => if (a =? x) && (b =? y) && (c =? z) then [i] else [] | _ => [] end) ++ findall x y z (i + 1) t.
Proof.
  intros x y z i a t. destruct t as [|b [|c t]]; [reflexivity|reflexivity|].
  cbn [findall]. destruct ((a =? x) && (b =? y) && (c =? z)); reflexivity.
Qed.

Lemma findall_shift : forall x y z d i j, findall x y z (i + j) d = map (Z.add j) (findall x y z i d).
Proof.
  intros x y z. induction d as [|a d IH]; intros i j; [reflexivity|].
  rewrite !findall_step. rewrite map_app. rewrite <- IH. f_equal; [|f_equal; ring].
  destruct d as [|b [|c d]]; [reflexivity|reflexivity|].
  destruct ((a =? x) && (b =? y) && (c =? z)); cbn [map]; [f_equal; ring|reflexivity].
Qed.

Lemma findall_ge : forall x y z d i, Forall (Z.le i) (findall x y z i d).
Proof.
  intros x y z. induction d as [|a d IH]; intros i; [constructor|].
  rewrite findall_step. apply Forall_app. split.
  - destruct d as [|b [|c d]]; try constructor.
    destruct ((a =? x) && (b =? y) && (c =? z)); repeat constructor. lia.
  - specialize (IH (i + 1)). eapply Forall_impl; [|exact IH]. cbv beta. lia.
Qed.

Lemma findall_skip1 : forall x y z i a t, a <> x -> findall x y z i (a :: t) = findall x y z (i + 1) t.
Proof.
  intros x y z i a t H. rewrite findall_step. destruct t as [|b [|c t]]; [reflexivity|reflexivity|].
  replace (a =? x) with false by lia. reflexivity.
Qed.
Lemma findall_skip2 : forall x y z i a b t, b <> x -> b <> y -> findall x y z i (a :: b :: t) = findall x y z (i + 2) t.
Proof.
  intros x y z i a b t H1 H2. rewrite findall_step. rewrite findall_skip1 by exact H1.
  replace (i + 1 + 1) with (i + 2) by ring.
  destruct t as [|c t]; [reflexivity|].
  replace (b =? y) with false by lia. rewrite andb_false_r. reflexivity.
Qed.
Lemma findall_skip3 : forall x y z i a b c t, c <> x -> c <> y -> c <> z -> findall x y z i (a :: b :: c :: t) = findall x y z (i + 3) t.
Proof.
  intros x y z i a b c t H1 H2 H3. rewrite findall_step. rewrite findall_skip2 by assumption.
  replace (i + 1 + 2) with (i + 3) by ring.
  replace (c =? z) with false by lia. rewrite andb_false_r. reflexivity.
Qed.

(** ** The pieces *)
Fixpoint emit (d : bytes) (from : Z) (next : list Z) : bytes :=
  match next with
  | [] => zskip from d
  | n :: next => slice d from (n + 2) ++ emit d (n + 3) next
  end.

Lemma pieces_emit : forall d next emu, pieces d emu next = emit d (emu + 3) next.
Proof.
  intros d. induction next as [|n next IH]; intros emu; cbn [pieces emit]; [reflexivity|]. rewrite IH. reflexivity.
Qed.

Lemma zskip_succ : forall A (a : A) d n, 0 <= n -> zskip (n + 1) (a :: d) = zskip n d.
Proof. intros A a d n H. cbn [zskip]. replace (n + 1 <=? 0) with false by lia. f_equal. lia. Qed.

Lemma emit_shift : forall next d a from, 0 <= from -> Forall (Z.le 0) next ->
  emit (a :: d) (from + 1) (map (Z.add 1) next) = emit d from next.
Proof.
  induction next as [|n next IH]; intros d a from H F; cbn [map emit].
  - apply zskip_succ. exact H.
  - unfold slice. rewrite zskip_succ by exact H. replace (1 + n + 2 - (from + 1)) with (n + 2 - from) by ring.
    f_equal. replace (1 + n + 3) with (n + 3 + 1) by ring. pose proof (Forall_inv F). apply IH; [lia|exact (Forall_inv_tail F)].
Qed.

Lemma emit_head : forall next d from b t, 0 <= from -> Forall (fun n => from < n + 2) next -> zskip from d = b :: t ->
  emit d from next = b :: emit d (from + 1) next.
Proof.
  intros next d from b t H F E.
  assert (T : zskip (from + 1) d = t).
  { rewrite <- zskip_zskip by lia. rewrite E. cbn [zskip]. destruct t; reflexivity. }
  destruct next as [|n next]; cbn [emit].
  - rewrite E, T. reflexivity.
  - pose proof (Forall_inv F) as L. cbv beta in L. unfold slice. rewrite E, T.
    cbn [zfirst]. replace (n + 2 - from <=? 0) with false by lia. replace (n + 2 - from - 1) with (n + 2 - (from + 1)) by ring. reflexivity.
Qed.

(** The bytes [zs ++ s] from the end of the zeros [zs] on. *)
Lemma emit_strip : forall s k, 0 <= k <= 2 ->
  let w := zeros (Z.to_nat k) ++ s in emit w k (findall 0 0 3 0 w) = strip k s.
Proof.
  induction s as [|b s IH]; intros k Hk; cbv zeta.
  - assert (C : k = 0 \/ k = 1 \/ k = 2) by lia. destruct C as [->|[->| ->]]; reflexivity.
  - assert (P : forall d i, 0 <= i -> Forall (Z.le 0) (findall 0 0 3 i d)).
    { intros d i Hi. eapply Forall_impl; [|apply findall_ge]. cbv beta. lia. }
    assert (Q : forall d i from, from < i + 2 -> Forall (fun n => from < n + 2) (findall 0 0 3 i d)).
    { intros d i from Hi. eapply Forall_impl; [|apply findall_ge]. cbv beta. lia. }
    assert (S1 : forall d a from, 0 <= from -> emit (a :: d) (from + 1) (findall 0 0 3 1 d) = emit d from (findall 0 0 3 0 d)).
    { intros d a from Hf. rewrite (findall_shift 0 0 3 d 0 1 : findall 0 0 3 1 d = _). apply emit_shift; [exact Hf|]. apply P. lia. }
    assert (S2 : forall d a c from, 0 <= from -> emit (a :: c :: d) (from + 2) (findall 0 0 3 2 d) = emit d from (findall 0 0 3 0 d)).
    { intros d a c from Hf. rewrite <- (S1 d c from Hf).
      rewrite (findall_shift 0 0 3 d 1 1 : findall 0 0 3 2 d = _). replace (from + 2) with (from + 1 + 1) by ring.
      apply emit_shift; [lia|]. apply P. lia. }
    assert (S3 : forall d a c e from, 0 <= from -> emit (a :: c :: e :: d) (from + 3) (findall 0 0 3 3 d) = emit d from (findall 0 0 3 0 d)).
    { intros d a c e from Hf. rewrite <- (S2 d c e from Hf).
      rewrite (findall_shift 0 0 3 d 2 1 : findall 0 0 3 3 d = _). replace (from + 3) with (from + 2 + 1) by ring.
      apply emit_shift; [lia|]. apply P. lia. }
    assert (C : k = 0 \/ k = 1 \/ k = 2) by lia. cbn [strip]. destruct C as [->|[->| ->]];
      [change (zeros (Z.to_nat 0)) with (@nil Z)|change (zeros (Z.to_nat 1)) with [0]|change (zeros (Z.to_nat 2)) with [0; 0]]; cbn [app].
    + change (0 =? 2) with false. cbn [andb].
      rewrite (emit_head _ _ 0 b s); [|lia|apply Q; lia|reflexivity]. f_equal.
      unfold count. destruct (b =? 0) eqn:E.
      * assert (b = 0) by lia. subst b. apply (IH 1). lia.
      * rewrite findall_skip1 by lia. etransitivity; [exact (S1 s b 0 ltac:(lia))|apply (IH 0); lia].
    + change (1 =? 2) with false. cbn [andb].
      rewrite (emit_head _ _ 1 b s); [|lia|apply Q; lia|reflexivity]. f_equal.
      unfold count. destruct (b =? 0) eqn:E.
      * assert (b = 0) by lia. subst b. apply (IH 2). lia.
      * rewrite findall_skip2 by lia. etransitivity; [exact (S2 s 0 b 0 ltac:(lia))|apply (IH 0); lia].
    + change (2 =? 2) with true. cbn [andb]. destruct (b =? 3) eqn:T.
      * assert (b = 3) by lia. subst b. rewrite findall_step. change ((0 =? 0) && (0 =? 0) && (3 =? 3)) with true. cbv iota.
        rewrite findall_skip2 by lia. change (0 + 1 + 2) with 3. cbn [app emit].
        change (slice (0 :: 0 :: 3 :: s) 2 (0 + 2)) with (@nil Z). cbn [app].
        etransitivity; [exact (S3 s 0 0 3 0 ltac:(lia))|apply (IH 0); lia].
      * rewrite findall_step. replace (b =? 3) with false by lia. rewrite andb_false_r. cbn [app].
        change (0 + 1) with 1.
        rewrite (emit_head _ _ 2 b s); [|lia|apply Q; lia|reflexivity]. f_equal.
        unfold count. destruct (b =? 0) eqn:E.
        -- assert (b = 0) by lia. subst b. etransitivity; [exact (S1 (0 :: 0 :: s) 0 2 ltac:(lia))|apply (IH 2); lia].
        -- rewrite findall_skip2 by lia. change (1 + 2) with 3. change (2 + 1) with (0 + 3).
           etransitivity; [exact (S3 s 0 0 b 0 ltac:(lia))|apply (IH 0); lia].
Qed.

Lemma start_code_prefix : forall long body, start_code (start_prefix long ++ body) = Ok (if long then 4 else 3).
Proof. intros [|] body; reflexivity. Qed.

Lemma rbsp_emit : forall nalu n, start_code nalu = Ok n -> rbsp nalu = Ok (emit nalu n (findall 0 0 3 0 nalu)).
Proof.
  intros nalu n H. unfold rbsp. rewrite H. cbn [rbind].
  destruct (findall 0 0 3 0 nalu) as [|e next]; [reflexivity|]. rewrite pieces_emit. reflexivity.
Qed.

Lemma rbsp_strip : forall long body, rbsp (start_prefix long ++ body) = Ok (strip 0 body).
Proof.
  intros long body. rewrite (rbsp_emit _ _ (start_code_prefix long body)). f_equal.
  assert (P : forall d i, 0 <= i -> Forall (Z.le 0) (findall 0 0 3 i d)).
  { intros d i Hi. eapply Forall_impl; [|apply findall_ge]. cbv beta. lia. }
  assert (S : forall n d a from, 0 <= n -> 0 <= from -> emit (a :: d) (from + 1) (findall 0 0 3 (n + 1) d) = emit d from (findall 0 0 3 n d)).
  { intros n d a from Hn Hf. rewrite (findall_shift 0 0 3 d n 1). apply emit_shift; [exact Hf|]. apply P. exact Hn. }
  assert (B : emit (0 :: 0 :: 1 :: body) 3 (findall 0 0 3 3 body) = strip 0 body).
  { assert (E : emit (0 :: 1 :: body) 2 (findall 0 0 3 2 body) = strip 0 body).
    { assert (E : emit (1 :: body) 1 (findall 0 0 3 1 body) = strip 0 body).
      { change 1 with (0 + 1) at 2. change (findall 0 0 3 1 body) with (findall 0 0 3 (0 + 1) body).
        rewrite (S 0 body 1 0) by lia. apply (emit_strip body 0). lia. }
      rewrite <- E.
      pose proof (findall_shift 0 0 3 body 1 1) as Sh. change (1 + 1) with 2 in Sh. rewrite Sh.
      apply (emit_shift (findall 0 0 3 1 body) (1 :: body) 0 1); [lia|]. apply P. lia. }
    rewrite <- E. pose proof (findall_shift 0 0 3 body 2 1) as Sh. change (2 + 1) with 3 in Sh. rewrite Sh.
    apply (emit_shift (findall 0 0 3 2 body) (0 :: 1 :: body) 0 2); [lia|]. apply P. lia. }
  destruct long; cbn [start_prefix app].
  - rewrite findall_step. change ((0 =? 0) && (0 =? 0) && (0 =? 3)) with false. cbn [app].
    rewrite findall_skip3 by lia. change (0 + 1 + 3) with 4. rewrite <- B.
    pose proof (findall_shift 0 0 3 body 3 1) as Sh. change (3 + 1) with 4 in Sh. rewrite Sh.
    apply (emit_shift (findall 0 0 3 3 body) (0 :: 0 :: 1 :: body) 0 3); [lia|]. apply P. lia.
  - rewrite findall_skip3 by lia. exact B.
Qed.

Lemma start_code_inv : forall nalu n, start_code nalu = Ok n ->
  exists long body, nalu = start_prefix long ++ body /\ n = zlen (start_prefix long).
Proof.
  intros nalu n H. unfold start_code in H.
  destruct nalu as [|a [|b [|c t]]]; [discriminate|destruct a; discriminate|destruct a; [destruct b| |]; discriminate|].
  destruct a as [|a|a].
  2,3: destruct ((c =? 1) && (b =? 0) && _) eqn:E in H; try discriminate; lia.
  destruct b as [|b|b].
  2,3: destruct ((c =? 1) && _ && (0 =? 0)) eqn:E in H; try discriminate; lia.
  destruct c as [|c|c].
  - destruct t as [|e t]; [discriminate|]. destruct (e =? 1) eqn:E; [|discriminate].
    assert (e = 1) by lia. subst e. exists true, t. split; [reflexivity|]. cbn. congruence.
  - destruct ((Z.pos c =? 1) && (0 =? 0) && (0 =? 0)) eqn:E; [|discriminate].
    assert (Z.pos c = 1) by lia. rewrite H0. exists false, t. split; [reflexivity|]. cbn. congruence.
  - destruct ((Z.neg c =? 1) && (0 =? 0) && (0 =? 0)) eqn:E; [lia|discriminate].
Qed.

(** ** The places of the bytes *)
Lemma nth_app_mid : forall (pre : bytes) b s x, nth (length pre) (pre ++ b :: s) x = b.
Proof. intros. rewrite app_nth2, Nat.sub_diag by lia. reflexivity. Qed.

Lemma counts_two : forall pre, counts 0 pre = 2 <-> exists p, pre = p ++ [0; 0].
Proof.
  intros pre. split.
  - intros H. destruct (rev pre) as [|a [|b r]] eqn:E.
    + assert (pre = []) by (rewrite <- (rev_involutive pre), E; reflexivity). subst. discriminate.
    + assert (pre = [a]) by (rewrite <- (rev_involutive pre), E; reflexivity). subst.
      unfold counts, count in H. cbn [fold_left] in H. destruct (a =? 0); discriminate.
    + assert (P : pre = rev r ++ [b; a]).
      { rewrite <- (rev_involutive pre), E. cbn [rev]. rewrite <- app_assoc. reflexivity. }
      subst pre. rewrite counts_app in H. pose proof (counts_range (rev r) 0 ltac:(lia)) as R.
      unfold counts at 1 in H. cbn [fold_left] in H. unfold count in H.
      destruct (a =? 0) eqn:A; [|lia]. destruct (b =? 0) eqn:B; [|lia].
      exists (rev r). repeat f_equal; lia.
  - intros [p ->]. rewrite counts_app. pose proof (counts_range p 0 ltac:(lia)) as R.
    unfold counts at 1. cbn [fold_left]. unfold count. change (0 =? 0) with true. cbv iota. lia.
Qed.

Lemma prevention_counts : forall pre b s, prevention (pre ++ b :: s) (length pre) = (counts 0 pre =? 2) && (b =? 3).
Proof.
  intros pre b s. destruct (counts 0 pre =? 2) eqn:E.
  - apply Z.eqb_eq, counts_two in E as [p ->]. cbn [andb].
    unfold prevention. rewrite app_length. cbn [length]. replace (length p + 2)%nat with (S (S (length p))) by lia.
    rewrite <- app_assoc. cbn [app]. rewrite nth_app_mid.
    rewrite !app_nth2 by lia. replace (S (length p) - length p)%nat with 1%nat by lia.
    replace (S (S (length p)) - length p)%nat with 2%nat by lia. cbn [nth]. reflexivity.
  - cbn [andb]. unfold prevention. destruct (length pre) as [|[|j]] eqn:L; [reflexivity|reflexivity|].
    destruct (((nth j (pre ++ b :: s) 1 =? 0) && (nth (S j) (pre ++ b :: s) 1 =? 0) && (nth (S (S j)) (pre ++ b :: s) 0 =? 3))) eqn:P; [|reflexivity].
    exfalso. apply Z.eqb_neq in E. apply E. apply counts_two.
    exists (firstn j pre).
    rewrite app_nth1 in P by lia. rewrite app_nth1 in P by lia.
    rewrite <- (firstn_skipn j pre) at 1. f_equal.
    assert (Ls : length (skipn j pre) = 2%nat) by (rewrite skipn_length; lia).
    assert (N1 : nth j pre 1 = nth 0 (skipn j pre) 1).
    { rewrite <- (firstn_skipn j pre) at 1. rewrite app_nth2; rewrite firstn_length; [|lia]. f_equal. lia. }
    assert (N2 : nth (S j) pre 1 = nth 1 (skipn j pre) 1).
    { rewrite <- (firstn_skipn j pre) at 1. rewrite app_nth2; rewrite firstn_length; [|lia]. f_equal. lia. }
    destruct (skipn j pre) as [|x [|y [|? ?]]]; try discriminate. cbn [nth] in N1, N2. repeat f_equal; lia.
Qed.

Lemma payload_strip : forall s pre,
  flat_map (fun i => if prevention (pre ++ s) i then [] else [nth i (pre ++ s) 0]) (seq (length pre) (length s)) = strip (counts 0 pre) s.
Proof.
  induction s as [|b s IH]; intros pre; [reflexivity|].
  cbn [length seq flat_map]. rewrite prevention_counts, nth_app_mid.
  specialize (IH (pre ++ [b])). rewrite app_length in IH. cbn [length] in IH. rewrite Nat.add_1_r in IH.
  rewrite <- app_assoc in IH. cbn [app] in IH. rewrite IH. rewrite counts_app.
  change (counts (counts 0 pre) [b]) with (count (counts 0 pre) b).
  cbn [strip]. destruct ((counts 0 pre =? 2) && (b =? 3)) eqn:E; [|reflexivity].
  cbn [app]. f_equal. unfold count. replace (b =? 0) with false by lia. reflexivity.
Qed.

Lemma payload_prefix : forall long body, payload (length (start_prefix long)) (start_prefix long ++ body) = strip 0 body.
Proof.
  intros long body. unfold payload. rewrite app_length.
  replace (length (start_prefix long) + length body - length (start_prefix long))%nat with (length body) by lia.
  rewrite payload_strip. destruct long; reflexivity.
Qed.

Lemma rbsp_payload : forall nalu n, start_code nalu = Ok n -> rbsp nalu = Ok (payload (Z.to_nat n) nalu).
Proof.
  intros nalu n H. apply start_code_inv in H as (long & body & -> & ->).
  rewrite rbsp_strip. unfold zlen. rewrite Nat2Z.id. rewrite payload_prefix. reflexivity.
Qed.

Lemma rbsp_prefix_payload : forall long body,
  rbsp (start_prefix long ++ body) = Ok (payload (length (start_prefix long)) (start_prefix long ++ body)).
Proof. intros long body. rewrite rbsp_strip, payload_prefix. reflexivity. Qed.

(** ** Escaping *)
Fixpoint ecount (k : Z) (p : bytes) : Z :=
  match p with
  | [] => k
  | b :: p => ecount (if (k =? 2) && (b <=? 3) then (if b =? 0 then 1 else 0) else if b =? 0 then k + 1 else 0) p
  end.

Lemma strip_escape : forall p k t, 0 <= k <= 2 -> strip k (escape k p ++ t) = p ++ strip (ecount k p) t.
Proof.
  induction p as [|b p IH]; intros k t Hk; [reflexivity|].
  cbn [escape ecount]. destruct ((k =? 2) && (b <=? 3)) eqn:E.
  - cbn [app strip]. replace (k =? 2) with true by lia. change (3 =? 3) with true. change (0 =? 2) with false. cbn [andb].
    f_equal. unfold count. change (Z.min 2 (0 + 1)) with 1. apply IH. destruct (b =? 0); lia.
  - cbn [app strip]. replace ((k =? 2) && (b =? 3)) with false by lia. f_equal.
    unfold count. destruct (b =? 0) eqn:B.
    + replace (Z.min 2 (k + 1)) with (k + 1) by lia. apply IH. lia.
    + apply IH. lia.
Qed.

Lemma strip_escape_all : forall p, strip 0 (escape 0 p) = p.
Proof. intros p. pose proof (strip_escape p 0 [] ltac:(lia)) as H. rewrite !app_nil_r in H. exact H. Qed.

Lemma ecount_range : forall p k, 0 <= k <= 2 -> 0 <= ecount k p <= 2.
Proof.
  induction p as [|b p IH]; intros k Hk; cbn [ecount]; [exact Hk|]. apply IH.
  destruct ((k =? 2) && (b <=? 3)) eqn:E; destruct (b =? 0) eqn:B; lia.
Qed.

Lemma ecount_app : forall p q k, ecount k (p ++ q) = ecount (ecount k p) q.
Proof. induction p as [|b p IH]; intros q k; [reflexivity|]. cbn [app ecount]. apply IH. Qed.

Lemma ecount_words : forall m, ecount 0 (zeros (2 * m)) = if (m =? 0)%nat then 0 else 2.
Proof.
  assert (G : forall m, ecount 2 (zeros (2 * m)) = 2).
  { induction m as [|m IH]; [reflexivity|]. replace (2 * S m)%nat with (S (S (2 * m))) by lia. exact IH. }
  intros [|m]; [reflexivity|]. replace (2 * S m)%nat with (S (S (2 * m))) by lia. exact (G m).
Qed.

Lemma strip_words : forall q x m, x <> 0 -> (0 < m)%nat ->
  strip 0 (escape 0 (q ++ x :: zeros (2 * m)) ++ [3]) = q ++ x :: zeros (2 * m).
Proof.
  intros q x m Hx Hm. rewrite strip_escape by lia.
  replace (ecount 0 (q ++ x :: zeros (2 * m))) with 2.
  - change (strip 2 [3]) with (@nil Z). apply app_nil_r.
  - rewrite ecount_app. cbn [ecount].
    replace (if (ecount 0 q =? 2) && (x <=? 3) then if x =? 0 then 1 else 0 else if x =? 0 then ecount 0 q + 1 else 0) with 0.
    + rewrite ecount_words. destruct m; [lia|reflexivity].
    + replace (x =? 0) with false by lia. destruct ((ecount 0 q =? 2) && (x <=? 3)); reflexivity.
Qed.

Lemma clean_escape : forall p k, 0 <= k <= 2 -> Forall (Z.le 0) p -> clean k (escape k p) = true.
Proof.
  induction p as [|b p IH]; intros k Hk F; [reflexivity|].
  pose proof (Forall_inv F) as Hb. pose proof (Forall_inv_tail F) as Ft. cbn [escape].
  destruct ((k =? 2) && (b <=? 3)) eqn:E.
  - cbn [clean]. replace (negb (k =? 2) || (3 <=? 3)) with true by lia. cbn [andb].
    unfold count at 2. change (3 =? 0) with false. cbv iota. change (negb (0 =? 2) || (3 <=? b)) with true. cbn [andb].
    unfold count. change (3 =? 0) with false. cbv iota. change (Z.min 2 (0 + 1)) with 1. apply IH; [destruct (b =? 0); lia|exact Ft].
  - cbn [clean]. replace (negb (k =? 2) || (3 <=? b)) with true by lia. cbn [andb].
    unfold count. destruct (b =? 0) eqn:B.
    + replace (Z.min 2 (k + 1)) with (k + 1) by lia. apply IH; [lia|exact Ft].
    + apply IH; [lia|exact Ft].
Qed.

(** A clean run holds no 0 0 x, x < 3, also when zeros come before it. *)
Lemma clean_stands : forall s pre i x, clean (counts 0 pre) s = true -> x < 3 -> (length pre <= S (S i))%nat ->
  ~ stands_at 0 0 x (pre ++ s) i.
Proof.
  induction s as [|b s IH]; intros pre i x C Hx Hi (A & B & D).
  - rewrite app_nil_r in D. assert (nth_error pre (S (S i)) <> None) by congruence. apply nth_error_Some in H. lia.
  - cbn [clean] in C. apply andb_prop in C as [C1 C2].
    destruct (Nat.eq_dec (length pre) (S (S i))) as [E|E].
    + assert (b = x).
      { rewrite nth_error_app2 in D by lia. replace (S (S i) - length pre)%nat with 0%nat in D by lia. cbn [nth_error] in D. congruence. }
      assert (K : counts 0 pre = 2).
      { apply counts_two. exists (firstn i pre).
        rewrite nth_error_app1 in A by lia. rewrite nth_error_app1 in B by lia.
        rewrite <- (firstn_skipn i pre) at 1. f_equal.
        assert (Ls : length (skipn i pre) = 2%nat) by (rewrite skipn_length; lia).
        rewrite <- (firstn_skipn i pre) in A, B. rewrite nth_error_app2 in A, B; rewrite firstn_length in *; try lia.
        replace (i - Nat.min i (length pre))%nat with 0%nat in A by lia.
        replace (S i - Nat.min i (length pre))%nat with 1%nat in B by lia.
        destruct (skipn i pre) as [|u [|v [|? ?]]]; try discriminate. cbn [nth_error] in A, B. congruence. }
      lia.
    + specialize (IH (pre ++ [b]) i x). rewrite counts_app in IH.
      apply IH; [exact C2|exact Hx|rewrite app_length; cbn [length]; lia|].
      rewrite <- app_assoc. cbn [app]. split; [exact A|split; [exact B|exact D]].
Qed.

Lemma escape_stands : forall p i x, Forall (Z.le 0) p -> x < 3 -> ~ stands_at 0 0 x (escape 0 p) i.
Proof. intros p i x F Hx. apply (clean_stands (escape 0 p) [] i x); [apply clean_escape; [lia|exact F]|exact Hx|cbn [length]; lia]. Qed.
