(** The operations turn one sequence into the other; what is said is right. *)
From Coq Require Import Lia ZifyBool ZifyNat Sorted Permutation.
From Verif Require Import Base BaseProofs Difflib DifflibProofs Opcodes OpcodesSpec.

(** ** Blocks in order. *)
Fixpoint chain {A} (eqb : A -> A -> bool) (a b : list A) (i0 j0 : nat) (l : list (nat * nat * nat)) (ih jh : nat) : Prop :=
  match l with
  | [] => (i0 <= ih /\ j0 <= jh)%nat
  | (i, j, k) :: l => (i0 <= i /\ j0 <= j /\ 0 < k)%nat /\ pairs eqb a b i j k /\ chain eqb a b (i + k) (j + k) l ih jh
  end.
Lemma chain_le {A} (eqb : A -> A -> bool) a b l : forall i0 j0 ih jh, chain eqb a b i0 j0 l ih jh -> (i0 <= ih /\ j0 <= jh)%nat.
Proof. induction l as [|[[i j] k] l IH]; intros i0 j0 ih jh; cbn [chain]; [auto|]. intros (H & _ & C). apply IH in C. lia. Qed.
Lemma chain_app {A} (eqb : A -> A -> bool) a b l m : forall i0 j0 im jm ih jh, chain eqb a b i0 j0 l im jm -> chain eqb a b im jm m ih jh -> chain eqb a b i0 j0 (l ++ m) ih jh.
Proof.
  induction l as [|[[i j] k] l IH]; intros i0 j0 im jm ih jh; cbn [chain app].
  - intros H C. destruct m as [|[[i j] k] m]; cbn [chain] in *; [lia|]. destruct C as (C & P & C'). split; [lia|auto].
  - intros (H & P & C) D. split; [exact H|]. split; [exact P|]. exact (IH _ _ _ _ _ _ C D).
Qed.
Fixpoint in_order {A} (eqb : A -> A -> bool) (a b : list A) (fuel : nat) (alo ahi blo bhi : nat) : list (nat * nat * nat) :=
  match fuel with
  | O => []
  | S fuel =>
      let '(i, j, k) := find_longest_match eqb a b alo ahi blo bhi in
      if (k =? 0)%nat then []
      else
        (if (alo <? i)%nat && (blo <? j)%nat then in_order eqb a b fuel alo i blo j else []) ++
        (i, j, k) :: (if (i + k <? ahi)%nat && (j + k <? bhi)%nat then in_order eqb a b fuel (i + k) ahi (j + k) bhi else [])
  end.
Lemma in_order_chain {A} (eqb : A -> A -> bool) a b : forall fuel alo ahi blo bhi, (alo <= ahi)%nat -> (blo <= bhi)%nat ->
  chain eqb a b alo blo (in_order eqb a b fuel alo ahi blo bhi) ahi bhi.
Proof.
  induction fuel as [|fuel IH]; intros alo ahi blo bhi HA HB; cbn [in_order]; [split; assumption|].
  pose proof (find_block eqb a b alo ahi blo bhi HA HB) as B. destruct (find_longest_match eqb a b alo ahi blo bhi) as [[i j] k]. destruct B as (B1 & B2 & B3 & B4 & B5).
  destruct (k =? 0)%nat eqn:K; [split; assumption|].
  apply (chain_app eqb a b _ _ alo blo i j).
  - destruct ((alo <? i)%nat && (blo <? j)%nat); [apply IH; assumption|split; assumption].
  - cbn [chain]. split; [lia|]. split; [exact B5|]. destruct ((i + k <? ahi)%nat && (j + k <? bhi)%nat); [apply IH; assumption|split; assumption].
Qed.
Lemma blocks_order {A} (eqb : A -> A -> bool) a b : forall fuel alo ahi blo bhi, Permutation (blocks eqb a b fuel alo ahi blo bhi) (in_order eqb a b fuel alo ahi blo bhi).
Proof.
  induction fuel as [|fuel IH]; intros alo ahi blo bhi; cbn [in_order blocks]; [constructor|].
  destruct (find_longest_match eqb a b alo ahi blo bhi) as [[i j] k]. destruct (k =? 0)%nat; [constructor|].
  apply Permutation_cons_app. eapply Permutation_trans; [|apply Permutation_app_comm]. apply Permutation_app.
  - destruct ((i + k <? ahi)%nat && (j + k <? bhi)%nat); [apply IH|constructor].
  - destruct ((alo <? i)%nat && (blo <? j)%nat); [apply IH|constructor].
Qed.
(** ** Sorting. *)
Definition le3 (x y : nat * nat * nat) : Prop := no_later x y = true.
Ltac tri := unfold le3, no_later in *; repeat match goal with x : (nat * nat * nat)%type |- _ => destruct x as [[? ?] ?] end.
Lemma le3_total x y : no_later x y = false -> le3 y x. Proof. tri. lia. Qed.
Lemma le3_trans x y z : le3 x y -> le3 y z -> le3 x z. Proof. tri. lia. Qed.
Lemma le3_anti x y : le3 x y -> le3 y x -> x = y. Proof. tri. intros. repeat f_equal; lia. Qed.
Lemma put_in_perm x l : Permutation (put_in x l) (x :: l).
Proof.
  induction l as [|y l IH]; cbn [put_in]; [auto|]. destruct (no_later x y); [auto|]. eapply Permutation_trans; [apply perm_skip, IH|apply perm_swap].
Qed.
Lemma sort_perm l : Permutation (sort l) l.
Proof. induction l as [|x l IH]; [constructor|]. change (sort (x :: l)) with (put_in x (sort l)). eapply Permutation_trans; [apply put_in_perm|]. apply perm_skip, IH. Qed.
Lemma put_in_sorted x l : StronglySorted le3 l -> StronglySorted le3 (put_in x l).
Proof.
  induction l as [|y l IH]; cbn [put_in]; intros H; [repeat constructor|]. inversion H as [|? ? H1 H2]; subst. destruct (no_later x y) eqn:E.
  - constructor; [exact H|]. constructor; [exact E|]. rewrite Forall_forall in *. intros z Z. apply (le3_trans x y z E). auto.
  - constructor; [auto|]. apply Forall_forall. intros z Z. apply (Permutation_in _ (put_in_perm x l)) in Z. destruct Z as [<-|Z]; [apply le3_total, E|]. rewrite Forall_forall in H2. auto.
Qed.
Lemma sort_sorted l : StronglySorted le3 (sort l).
Proof. induction l as [|x l IH]; [constructor|]. apply put_in_sorted, IH. Qed.
Lemma sorted_unique l m : StronglySorted le3 l -> StronglySorted le3 m -> Permutation l m -> l = m.
Proof.
  revert m. induction l as [|x l IH]; intros m L M P; [apply Permutation_nil in P; congruence|].
  destruct m as [|y m]; [apply Permutation_sym, Permutation_nil in P; discriminate P|].
  inversion L as [|? ? L1 L2]; subst. inversion M as [|? ? M1 M2]; subst. rewrite Forall_forall in L2, M2.
  assert (E : x = y).
  { assert (X : In x (y :: m)) by (apply (Permutation_in _ P); left; reflexivity). assert (Y : In y (x :: l)) by (apply (Permutation_in _ (Permutation_sym P)); left; reflexivity).
    destruct X as [X|X]; [congruence|]. destruct Y as [Y|Y]; [congruence|]. apply le3_anti; auto. }
  subst y. f_equal. apply IH; auto. exact (Permutation_cons_inv P).
Qed.
Lemma chain_sorted {A} (eqb : A -> A -> bool) a b l : forall i0 j0 ih jh, chain eqb a b i0 j0 l ih jh -> StronglySorted le3 l /\ Forall (fun x => (i0 <= fst (fst x))%nat) l.
Proof.
  induction l as [|[[i j] k] l IH]; intros i0 j0 ih jh; cbn [chain]; [repeat constructor|]. intros (H & _ & C). destruct (IH _ _ _ _ C) as [S F]. split.
  - constructor; [exact S|]. apply (Forall_impl _ (P := fun x => (i + k <= fst (fst x))%nat)); [|exact F]. intros [[i' j'] k']. cbn [fst]. unfold le3, no_later. lia.
  - constructor; [cbn [fst]; lia|]. apply (Forall_impl _ (P := fun x => (i + k <= fst (fst x))%nat)); [|exact F]. intros [[i' j'] k']. cbn [fst]. lia.
Qed.
Lemma sorted_blocks {A} (eqb : A -> A -> bool) a b fuel : sort (blocks eqb a b fuel 0 (length a) 0 (length b)) = in_order eqb a b fuel 0 (length a) 0 (length b).
Proof.
  apply sorted_unique; [apply sort_sorted| |].
  - eapply proj1, chain_sorted, in_order_chain; lia.
  - eapply Permutation_trans; [apply sort_perm|apply blocks_order].
Qed.
(** ** Joining. *)
Fixpoint sizes (l : list (nat * nat * nat)) : nat := match l with [] => 0%nat | (_, _, k) :: l => (k + sizes l)%nat end.
(** No block touches the one before, which ends at (i, j). *)
Fixpoint apart (i j : nat) (l : list (nat * nat * nat)) : Prop :=
  match l with [] => True | (i', j', k) :: l => ~ (i' = i /\ j' = j) /\ apart (i' + k) (j' + k) l end.
Definition loose (l : list (nat * nat * nat)) : Prop := match l with [] => True | (i, j, k) :: l => apart (i + k) (j + k) l end.
Lemma join_chain {A} (eqb : A -> A -> bool) a b ih jh l : forall i0 j0 i j k, (i0 <= i)%nat -> (j0 <= j)%nat -> pairs eqb a b i j k -> chain eqb a b (i + k) (j + k) l ih jh ->
  chain eqb a b i0 j0 (join i j k l) ih jh.
Proof.
  induction l as [|[[i2 j2] k2] l IH]; intros i0 j0 i j k I J P C; cbn [join].
  - unfold block_of. cbn [chain] in C. destruct (k =? 0)%nat eqn:K; cbn [chain]; [lia|]. split; [lia|]. split; [exact P|lia].
  - cbn [chain] in C. destruct C as (H & P2 & C). destruct ((i + k =? i2)%nat && (j + k =? j2)%nat) eqn:E.
    + assert (i2 = i + k /\ j2 = j + k)%nat as [-> ->] by lia. apply IH; auto.
      * intros t T. destruct (Nat.lt_ge_cases t k) as [L|L]; [apply P, L|]. specialize (P2 (t - k)%nat ltac:(lia)). replace (i + t)%nat with (i + k + (t - k))%nat by lia.
        replace (j + t)%nat with (j + k + (t - k))%nat by lia. exact P2.
      * rewrite !Nat.add_assoc. exact C.
    + unfold block_of. destruct (k =? 0)%nat eqn:K; cbn [app chain]; [apply IH; auto; lia|]. split; [lia|]. split; [exact P|]. apply IH; auto; lia.
Qed.
Lemma join_sizes l : forall i j k, sizes (join i j k l) = (k + sizes l)%nat.
Proof.
  induction l as [|[[i2 j2] k2] l IH]; intros i j k; cbn [join sizes].
  - unfold block_of. destruct (k =? 0)%nat eqn:K; cbn [sizes]; lia.
  - destruct (_ && _); [rewrite IH; lia|]. unfold block_of. destruct (k =? 0)%nat eqn:K; cbn [app sizes]; rewrite IH; lia.
Qed.
Lemma join_apart {A} (eqb : A -> A -> bool) a b ih jh l : forall i j k p q, chain eqb a b (i + k) (j + k) l ih jh -> (0 < k)%nat -> ~ (i = p /\ j = q) -> apart p q (join i j k l).
Proof.
  induction l as [|[[i2 j2] k2] l IH]; intros i j k p q C K N; cbn [join].
  - unfold block_of. destruct (k =? 0)%nat eqn:E; cbn [apart]; auto.
  - cbn [chain] in C. destruct C as (H & _ & C). destruct ((i + k =? i2)%nat && (j + k =? j2)%nat) eqn:E.
    + assert (i2 = i + k /\ j2 = j + k)%nat as [-> ->] by lia. apply IH; auto; [|lia]. rewrite !Nat.add_assoc. exact C.
    + unfold block_of. destruct (k =? 0)%nat eqn:Z; [lia|]. cbn [app apart]. split; [exact N|]. apply IH; auto; lia.
Qed.
Lemma join_loose {A} (eqb : A -> A -> bool) a b ih jh l : forall i j k, chain eqb a b (i + k) (j + k) l ih jh -> loose (join i j k l).
Proof.
  induction l as [|[[i2 j2] k2] l IH]; intros i j k C; cbn [join].
  - unfold block_of. destruct (k =? 0)%nat; cbn [loose apart]; auto.
  - cbn [chain] in C. destruct C as (H & _ & C). destruct ((i + k =? i2)%nat && (j + k =? j2)%nat) eqn:E.
    + assert (i2 = i + k /\ j2 = j + k)%nat as [-> ->] by lia. apply IH. rewrite !Nat.add_assoc. exact C.
    + unfold block_of. destruct (k =? 0)%nat eqn:Z; cbn [app]; [apply IH, C|]. cbn [loose]. apply (join_apart eqb a b ih jh); auto; lia.
Qed.
(** ** The blocks of two sequences. *)
Definition joined {A} (eqb : A -> A -> bool) (a b : list A) : list (nat * nat * nat) := join 0 0 0 (sort (blocks eqb a b (S (length a)) 0 (length a) 0 (length b))).
Lemma joined_chain {A} (eqb : A -> A -> bool) a b : chain eqb a b 0 0 (joined eqb a b) (length a) (length b) /\ loose (joined eqb a b).
Proof.
  unfold joined. rewrite sorted_blocks. split.
  - apply join_chain; try lia; [intros t T; lia|]. apply in_order_chain; lia.
  - apply (join_loose eqb a b (length a) (length b)). apply in_order_chain; lia.
Qed.
Lemma sizes_app l m : sizes (l ++ m) = (sizes l + sizes m)%nat.
Proof. induction l as [|[[i j] k] l IH]; [reflexivity|]. cbn [app sizes]. lia. Qed.
Lemma in_order_sizes {A} (eqb : A -> A -> bool) a b : forall fuel alo ahi blo bhi, sizes (in_order eqb a b fuel alo ahi blo bhi) = matches eqb a b fuel alo ahi blo bhi.
Proof.
  induction fuel as [|fuel IH]; intros alo ahi blo bhi; cbn [in_order matches]; [reflexivity|]. destruct (find_longest_match eqb a b alo ahi blo bhi) as [[i j] k].
  destruct (k =? 0)%nat; [reflexivity|]. rewrite sizes_app. cbn [sizes]. destruct ((alo <? i)%nat && (blo <? j)%nat), ((i + k <? ahi)%nat && (j + k <? bhi)%nat); rewrite ?IH; cbn [sizes]; lia.
Qed.
(** ** Operations. *)
Lemma cut_length {A} (l : list A) i j : (i <= j)%nat -> (j <= length l)%nat -> length (cut l i j) = (j - i)%nat.
Proof. intros H K. unfold cut. rewrite firstn_length, skipn_length. lia. Qed.
Lemma cut_skip {A} (l : list A) i j : (i <= j)%nat -> skipn i l = cut l i j ++ skipn j l.
Proof. intros H. unfold cut. rewrite <- (firstn_skipn (j - i) (skipn i l)) at 1. f_equal. revert l. induction i as [|i IH] in j, H |- *; intros l; [rewrite Nat.sub_0_r; reflexivity|].
  destruct l as [|x l]; [rewrite !skipn_nil; reflexivity|]. destruct j as [|j]; [lia|]. cbn [skipn]. rewrite <- (IH j) by lia. reflexivity. Qed.
Lemma nth_skipn {A} (l : list A) i t : nth_error (skipn i l) t = nth_error l (i + t).
Proof. revert i. induction l as [|x l IH]; intros [|i]; try reflexivity; [rewrite skipn_nil; destruct t; reflexivity|]. cbn [skipn Nat.add nth_error]. apply IH. Qed.
Lemma nth_firstn {A} (l : list A) n t : (t < n)%nat -> nth_error (firstn n l) t = nth_error l t.
Proof. revert n t. induction l as [|x l IH]; intros [|n] t H; try lia; [reflexivity|]. destruct t as [|t]; [reflexivity|]. cbn [firstn nth_error]. apply IH. lia. Qed.
Lemma pairs_alike {A} (eqb : A -> A -> bool) a b i j k : pairs eqb a b i j k -> (i + k <= length a)%nat -> (j + k <= length b)%nat -> alike_one_by_one eqb (cut a i (i + k)) (cut b j (j + k)).
Proof.
  intros P HA HB. apply pairs_forall; [rewrite !cut_length by lia; lia|]. intros t T. rewrite cut_length in T by lia. specialize (P t ltac:(lia)). unfold same, at_is, cut in *. cbn [Nat.add].
  rewrite !nth_firstn, !nth_skipn by lia. exact P.
Qed.
Lemma cut_some {A} (l : list A) i j : (i < j)%nat -> (j <= length l)%nat -> cut l i j <> [].
Proof. intros H K E. pose proof (cut_length l i j ltac:(lia) K) as L. rewrite E in L. cbn [length] in L. lia. Qed.
Lemma script_change {A} (eqb : A -> A -> bool) a b i j ai bj l : (i <= ai <= length a)%nat -> (j <= bj <= length b)%nat -> script eqb ai bj (skipn ai a) (skipn bj b) l ->
  script eqb i j (skipn i a) (skipn j b) (change i ai j bj ++ l).
Proof.
  intros I J S. rewrite (cut_skip a i ai), (cut_skip b j bj) by lia. unfold change.
  assert (EA : (ai = i + length (cut a i ai))%nat) by (rewrite cut_length; lia). assert (EB : (bj = j + length (cut b j bj))%nat) by (rewrite cut_length; lia).
  destruct (i <? ai)%nat eqn:E1; destruct (j <? bj)%nat eqn:E2; cbn [andb app].
  - replace (Op Replace i ai j bj) with (Op Replace i (i + length (cut a i ai)) j (j + length (cut b j bj))) by (f_equal; lia).
    apply sc_replace; [apply cut_some; lia|apply cut_some; lia|]. rewrite <- EA, <- EB. exact S.
  - assert (bj = j) by lia. subst bj. replace (cut b j j) with (@nil A) by (unfold cut; rewrite Nat.sub_diag; reflexivity). cbn [app].
    replace (Op Delete i ai j j) with (Op Delete i (i + length (cut a i ai)) j j) by (f_equal; lia).
    apply sc_delete; [apply cut_some; lia|]. rewrite <- EA. exact S.
  - assert (ai = i) by lia. subst ai. replace (cut a i i) with (@nil A) by (unfold cut; rewrite Nat.sub_diag; reflexivity). cbn [app].
    replace (Op Insert i i j bj) with (Op Insert i i j (j + length (cut b j bj))) by (f_equal; lia).
    apply sc_insert; [apply cut_some; lia|]. rewrite <- EB. exact S.
  - assert (ai = i) by lia. assert (bj = j) by lia. subst ai bj. unfold cut. rewrite !Nat.sub_diag. exact S.
Qed.
Lemma script_from {A} (eqb : A -> A -> bool) a b l : forall i j, chain eqb a b i j l (length a) (length b) ->
  script eqb i j (skipn i a) (skipn j b) (opcodes_from i j (l ++ [(length a, length b, 0%nat)])).
Proof.
  induction l as [|[[ai bj] k] l IH]; intros i j C; cbn [app opcodes_from].
  - cbn [chain] in C. change (0 =? 0)%nat with true. cbv iota. cbn [app]. apply script_change; [lia|lia|]. rewrite !skipn_all2 by lia. apply sc_end.
  - cbn [chain] in C. destruct C as (H & P & C). pose proof (chain_le _ _ _ _ _ _ _ _ C) as L. destruct (k =? 0)%nat eqn:K; [lia|]. apply script_change; [lia|lia|]. cbn [app].
    rewrite (cut_skip a ai (ai + k)), (cut_skip b bj (bj + k)) by lia.
    assert (EA : (ai + k = ai + length (cut a ai (ai + k)))%nat) by (rewrite cut_length; lia). assert (EB : (bj + k = bj + length (cut b bj (bj + k)))%nat) by (rewrite cut_length; lia).
    replace (Op Equal ai (ai + k) bj (bj + k)) with (Op Equal ai (ai + length (cut a ai (ai + k))) bj (bj + length (cut b bj (bj + k)))) by (f_equal; lia).
    apply sc_equal; [apply cut_some; lia|apply pairs_alike; auto; lia|]. rewrite <- EA, <- EB. apply IH, C.
Qed.
Theorem opcodes_script {A} (eqb : A -> A -> bool) a b : script eqb 0 0 a b (opcodes eqb a b).
Proof. destruct (joined_chain eqb a b) as [C _]. exact (script_from eqb a b _ 0 0 C). Qed.
Lemma change_one i ai j bj : (i <= ai)%nat -> (j <= bj)%nat -> ~ (ai = i /\ bj = j) -> exists o, change i ai j bj = [o] /\ is_equal o = false.
Proof.
  intros I J N. unfold change. destruct (i <? ai)%nat eqn:E1; destruct (j <? bj)%nat eqn:E2; cbn [andb]; first [eexists; split; reflexivity | exfalso; lia].
Qed.
Lemma change_none_or i ai j bj : change i ai j bj = [] \/ exists o, change i ai j bj = [o] /\ is_equal o = false.
Proof. unfold change. destruct (i <? ai)%nat; destruct (j <? bj)%nat; cbn [andb]; auto; right; eexists; split; reflexivity. Qed.
Lemma alternate_from {A} (eqb : A -> A -> bool) a b e : is_equal e = true -> forall l i j, chain eqb a b i j l (length a) (length b) -> apart i j l ->
  alternate (e :: opcodes_from i j (l ++ [(length a, length b, 0%nat)])).
Proof.
  intros E l. revert e E. induction l as [|[[ai bj] k] l IH]; intros e E i j C P; cbn [app opcodes_from].
  - cbn [app]. change (0 =? 0)%nat with true. cbv iota. cbn [app]. rewrite app_nil_r. destruct (change_none_or i (length a) j (length b)) as [->|(o & -> & O)]; [exact I|].
    cbn [alternate]. split; [congruence|exact I].
  - cbn [chain] in C. destruct C as (H & _ & C). cbn [apart] in P. destruct P as [N P]. destruct (change_one i ai j bj) as (o & -> & O); try lia.
    destruct (k =? 0)%nat eqn:K; [lia|]. cbn [app]. cbn [alternate]. split; [congruence|]. split; [rewrite O; discriminate|]. apply (IH (Op Equal ai (ai + k) bj (bj + k)) eq_refl _ _ C P).
Qed.
Theorem opcodes_alternate {A} (eqb : A -> A -> bool) a b : alternate (opcodes eqb a b).
Proof.
  destruct (joined_chain eqb a b) as [C L]. change (alternate (opcodes_from 0 0 (joined eqb a b ++ [(length a, length b, 0%nat)]))). destruct (joined eqb a b) as [|[[i j] k] l]; cbn [app opcodes_from].
  - cbn [app]. change (0 =? 0)%nat with true. cbv iota. cbn [app]. rewrite app_nil_r. destruct (change_none_or 0 (length a) 0 (length b)) as [->|(o & -> & _)]; exact I.
  - cbn [chain] in C. destruct C as (H & _ & C). cbn [loose] in L. destruct (k =? 0)%nat eqn:K; [lia|]. pose proof (alternate_from eqb a b (Op Equal i (i + k) j (j + k)) eq_refl l _ _ C L) as Q.
    destruct (change_none_or 0 i 0 j) as [->|(o & -> & O)]; [exact Q|]. cbn [app]. cbn [alternate] in *. split; [rewrite O; discriminate|exact Q].
Qed.
(** All are of equal pieces if the ratio is one. *)
Lemma from_sizes l n m : forall i j, (forall o, In o (opcodes_from i j (l ++ [(n, m, 0%nat)])) -> is_equal o = true) ->
  forall A (eqb : A -> A -> bool) a b, chain eqb a b i j l n m -> (i + sizes l = n)%nat /\ (j + sizes l = m)%nat.
Proof.
  induction l as [|[[ai bj] k] l IH]; intros i j H A eqb a b C; cbn [app opcodes_from sizes] in *.
  - cbn [chain] in C. destruct (Nat.eq_dec n i) as [->|E]; [destruct (Nat.eq_dec m j) as [->|E']; [lia|]|].
    + destruct (change_one i i j m) as (o & Q & O); try lia. rewrite (H o) in O; [discriminate O|]. apply in_app_iff. left. rewrite Q. left; reflexivity.
    + destruct (change_one i n j m) as (o & Q & O); try lia. rewrite (H o) in O; [discriminate O|]. apply in_app_iff. left. rewrite Q. left; reflexivity.
  - cbn [chain] in C. destruct C as (L & _ & C). destruct (IH (ai + k) (bj + k))%nat with (eqb := eqb) (a := a) (b := b) as [E1 E2]; [|exact C|].
    + intros o O. apply H. rewrite !in_app_iff. auto.
    + assert (D : ai = i /\ bj = j).
      { destruct (Nat.eq_dec ai i) as [X|X]; [destruct (Nat.eq_dec bj j) as [Y|Y]; [auto|]|];
          (destruct (change_one i ai j bj) as (o & Q & O); [lia|lia|lia|]; rewrite (H o) in O; [discriminate O|]; apply in_app_iff; left; rewrite Q; left; reflexivity). }
      lia.
Qed.
Lemma script_all {A} (eqb : A -> A -> bool) i j a b l : script eqb i j a b l -> (forall o, In o l -> is_equal o = true) -> alike_one_by_one eqb a b.
Proof.
  induction 1 as [i j|i j u v a b l U E S IH|i j u v a b l U V S IH|i j u a b l U S IH|i j v a b l V S IH]; intros H.
  - constructor.
  - apply Forall2_app; [exact E|]. apply IH. intros o O. apply H. right; exact O.
  - specialize (H _ (or_introl eq_refl)). discriminate H.
  - specialize (H _ (or_introl eq_refl)). discriminate H.
  - specialize (H _ (or_introl eq_refl)). discriminate H.
Qed.
Theorem all_equal {A} (eqb : A -> A -> bool) a b : ratio_one eqb a b = true <-> forall o, In o (opcodes eqb a b) -> is_equal o = true.
Proof.
  destruct (joined_chain eqb a b) as [C L]. assert (S : sizes (joined eqb a b) = matches eqb a b (S (length a)) 0 (length a) 0 (length b)).
  { unfold joined. rewrite join_sizes, sorted_blocks, in_order_sizes. lia. }
  unfold ratio_one. rewrite <- S. split.
  - intros R. destruct (matches_bound eqb a b (Datatypes.S (length a)) 0 (length a) 0 (length b)) as [[B1 B2] _]; try lia.
    assert (E : (sizes (joined eqb a b) = length a /\ length a = length b)%nat) by lia. destruct E as [E1 E2]. clear S R B1 B2 L.
    change (forall o, In o (opcodes_from 0 0 (joined eqb a b ++ [(length a, length b, 0%nat)])) -> is_equal o = true).
    assert (G : forall l i j, chain eqb a b i j l (length a) (length b) -> i = j -> (i + sizes l = length a)%nat -> forall o, In o (opcodes_from i j (l ++ [(length a, length b, 0%nat)])) -> is_equal o = true).
    { rewrite <- E2. induction l as [|[[ai bj] k] l IH]; intros i j D EJ Z o O; cbn [app opcodes_from sizes chain] in *.
      - change (0 =? 0)%nat with true in O. cbv iota in O. subst j. replace (length a) with i in O by lia. unfold change in O. rewrite Nat.ltb_irrefl in O. destruct O.
      - destruct D as (H & _ & D). assert (LS : forall l i j n m, chain eqb a b i j l n m -> (i + sizes l <= n /\ j + sizes l <= m)%nat).
        { clear. induction l as [|[[ai bj] k] l IH]; intros i j n m D; cbn [chain sizes] in *; [lia|]. destruct D as (H & _ & D). specialize (IH _ _ _ _ D). lia. }
        specialize (LS _ _ _ _ _ D). assert (ai = i) by lia. assert (bj = j) by lia. subst ai bj j. unfold change in O. rewrite Nat.ltb_irrefl in O. cbn [andb app] in O.
        apply in_app_iff in O as [O|O]; [destruct (k =? 0)%nat; [destruct O|]; destruct O as [<-|[]]; reflexivity|]. apply (IH _ _ D); auto. lia. }
    apply G; auto.
  - intros H. destruct (from_sizes (joined eqb a b) (length a) (length b) 0 0 H A eqb a b C) as [E1 E2]. lia.
Qed.
(** b is rebuilt. *)
Lemma skipn_app_at {A} (a u r : list A) i : skipn i a = u ++ r -> cut a i (i + length u) = u /\ skipn (i + length u) a = r.
Proof.
  intros E. unfold cut. replace (i + length u - i)%nat with (length u) by lia. rewrite E. split.
  - rewrite firstn_app, firstn_all, Nat.sub_diag. cbn [firstn]. apply app_nil_r.
  - clear - E. revert a E. induction i as [|i IH]; intros a E; [cbn [skipn Nat.add] in *; subst a; rewrite skipn_app, skipn_all, Nat.sub_diag; reflexivity|].
    destruct a as [|x a]; [cbn [skipn] in E; symmetry in E; apply app_eq_nil in E as [-> ->]; apply skipn_nil|]. cbn [skipn Nat.add] in *. apply IH, E.
Qed.
Lemma alike_eq {A} (eqb : A -> A -> bool) u v : (forall x y, eqb x y = true -> x = y) -> alike_one_by_one eqb u v -> u = v.
Proof. intros E H. induction H as [|x y u v X F IH]; [reflexivity|]. rewrite (E x y X), IH. reflexivity. Qed.
Lemma script_rebuilt {A} (eqb : A -> A -> bool) (a0 b0 : list A) : (forall x y, eqb x y = true -> x = y) -> forall i j a b l, script eqb i j a b l -> a = skipn i a0 -> b = skipn j b0 -> rebuilt a0 b0 l = b.
Proof.
  intros EQ. induction 1 as [i j|i j u v a b l U E S IH|i j u v a b l U V S IH|i j u a b l U S IH|i j v a b l V S IH]; intros HA HB; unfold rebuilt; cbn [flat_map piece op_tag op_i1 op_i2 op_j1 op_j2]; [reflexivity|..];
    fold (rebuilt a0 b0 l).
  - destruct (skipn_app_at a0 u a i (eq_sym HA)) as [CA SA]. destruct (skipn_app_at b0 v b j (eq_sym HB)) as [CB SB]. unfold piece. cbn [op_tag op_i1 op_i2]. rewrite CA, IH by auto. f_equal. exact (alike_eq eqb u v EQ E).
  - destruct (skipn_app_at a0 u a i (eq_sym HA)) as [CA SA]. destruct (skipn_app_at b0 v b j (eq_sym HB)) as [CB SB]. unfold piece. cbn [op_tag op_j1 op_j2]. rewrite CB, IH by auto. reflexivity.
  - destruct (skipn_app_at a0 u a i (eq_sym HA)) as [CA SA]. apply IH; auto.
  - destruct (skipn_app_at b0 v b j (eq_sym HB)) as [CB SB]. unfold piece. cbn [op_tag op_j1 op_j2]. rewrite CB, IH by auto. reflexivity.
Qed.
Theorem opcodes_rebuilt {A} (eqb : A -> A -> bool) (a b : list A) : (forall x y, eqb x y = true -> x = y) -> rebuilt a b (opcodes eqb a b) = b.
Proof. intros E. apply (script_rebuilt eqb a b E 0 0 a b); [apply opcodes_script|reflexivity|reflexivity]. Qed.
