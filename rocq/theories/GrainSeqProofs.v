From Coq Require Import String Lia ZifyBool ZifyNat.
From Verif Require Import Base BaseProofs PyValue PyList GrainObj GrainPair GrainPairSpec GrainPairMain GrainSeq GrainSeqSpec.
Local Open Scope list_scope.

Lemma kinds d b v : item_eq (IMeta d) v = true -> item_eq (IData b) v = true -> False.
Proof. destruct v as [e|[c|]]; destruct b as [b|]; cbn [item_eq]; intros; congruence. Qed.
Lemma get_at a b : get_data a = Ok b -> pair_get a 0 = Ok (IMeta (o_meta a)) /\ pair_get a 1 = Ok (IData b) /\ forall i, 1 < i -> pair_get a i = Err EIndex.
Proof.
  intros H. destruct (elements a b 0 H) as (E0 & _). destruct (elements a b 1 H) as (_ & E1 & _). split; [apply E0; auto|]. split; [apply E1; auto|].
  intros i I. apply (elements a b i H). auto.
Qed.
Lemma contains_iff a b v : get_data a = Ok b -> (exists r, seq_contains a v = Ok r) /\ (seq_contains a v = Ok true <-> exists i, stands_at a b v i).
Proof.
  intros H. destruct (get_at a b H) as (E0 & E1 & E2). unfold seq_contains. cbn [contains_from]. change (0 + 1) with 1. change (1 + 1) with 2. rewrite E0, E1, (E2 2) by lia.
  unfold stands_at. destruct (item_eq (IMeta (o_meta a)) v) eqn:M; destruct (item_eq (IData b) v) eqn:D; (split; [eexists; reflexivity|split; [intros K; try discriminate K|reflexivity || (intros (i & [[_ K]|[_ K]]); discriminate K)]]).
  - exists 0. auto.
  - exists 0. auto.
  - exists 1. auto.
Qed.
Lemma count_iff a b v : get_data a = Ok b -> exists n, seq_count a v = Ok n /\ (n = 0 \/ n = 1) /\ (n = 1 <-> exists i, stands_at a b v i).
Proof.
  intros H. unfold seq_count. rewrite (proj1 (whole a b H)). cbn [rbind filter]. unfold stands_at.
  destruct (item_eq (IMeta (o_meta a)) v) eqn:M; destruct (item_eq (IData b) v) eqn:D.
  - destruct (kinds _ _ _ M D).
  - exists 1. split; [reflexivity|]. split; [auto|]. split; [intros _; exists 0; auto|auto].
  - exists 1. split; [reflexivity|]. split; [auto|]. split; [intros _; exists 1; auto|auto].
  - exists 0. split; [reflexivity|]. split; [auto|]. split; [intros K; discriminate K|intros (i & [[_ K]|[_ K]]); discriminate K].
Qed.
Lemma reversed_iff a b : get_data a = Ok b -> seq_reversed a = Ok [IData b; IMeta (o_meta a)].
Proof. intros H. destruct (get_at a b H) as (E0 & E1 & _). unfold seq_reversed. change (pair_len a - 1) with 1. change (pair_len a - 2) with 0. rewrite E1, E0. reflexivity. Qed.
Lemma index_from_iff a b v stop : get_data a = Ok b -> forall start, 0 <= start ->
  index_from 3 start stop a v = Err EValue /\ (forall i, stands_at a b v i -> start <= i -> ~ (forall s, stop = Some s -> i < s)) \/
  exists i, index_from 3 start stop a v = Ok i /\ stands_at a b v i /\ start <= i /\ forall s, stop = Some s -> i < s.
Proof.
  intros H start S0. destruct (get_at a b H) as (E0 & E1 & E2).
  set (ok := fun i => match stop with None => true | Some s => i <? s end).
  assert (OK : forall i, ok i = true <-> forall s, stop = Some s -> i < s).
  { intros j. unfold ok. destruct stop as [s|]; [|split; [intros _ s K; discriminate K|reflexivity]]. split; [intros K q Q; injection Q as <-; lia|intros K; specialize (K s eq_refl); lia]. }
  assert (NOT : forall i, ok i = false -> ~ forall s, stop = Some s -> i < s) by (intros j K Q; apply OK in Q; congruence).
  assert (MONO : ok 0 = false -> ok 1 = false) by (unfold ok; destruct stop as [s|]; [lia|auto]).
  unfold stands_at. cbn [index_from]. fold (ok start). fold (ok (start + 1)). fold (ok (start + 1 + 1)).
  destruct (Z.eq_dec start 0) as [->|N0]; [|destruct (Z.eq_dec start 1) as [->|N1]].
  - change (0 + 1) with 1. change (1 + 1) with 2. rewrite E0, E1, (E2 2) by lia. destruct (ok 0) eqn:O0.
    + destruct (item_eq (IMeta (o_meta a)) v) eqn:M.
      * right. exists 0. split; [reflexivity|]. split; [auto|]. split; [lia|]. apply OK, O0.
      * destruct (ok 1) eqn:O1.
        -- destruct (item_eq (IData b) v) eqn:D.
           ++ right. exists 1. split; [reflexivity|]. split; [auto|]. split; [lia|]. apply OK, O1.
           ++ left. split; [destruct (ok 2); reflexivity|]. intros j [[_ K]|[_ K]]; discriminate K.
        -- left. split; [reflexivity|]. intros j [[_ K]|[-> _]] _; [discriminate K|]. apply NOT, O1.
    + left. split; [reflexivity|]. intros j [[-> _]|[-> _]] _; apply NOT; auto.
  - change (1 + 1) with 2. change (2 + 1) with 3. rewrite E1, (E2 2) by lia. destruct (ok 1) eqn:O1.
    + destruct (item_eq (IData b) v) eqn:D.
      * right. exists 1. split; [reflexivity|]. split; [auto|]. split; [lia|]. apply OK, O1.
      * left. split; [destruct (ok 2); reflexivity|]. intros j [[-> _]|[_ K]] L; [lia|discriminate K].
    + left. split; [reflexivity|]. intros j [[-> _]|[-> _]] L; [lia|]. apply NOT, O1.
  - left. rewrite (E2 start) by lia. split; [destruct (ok start); reflexivity|]. intros j [[-> _]|[-> _]] L; lia.
Qed.
Lemma index_iff a b v start stop : get_data a = Ok b ->
  (forall i, seq_index a v start stop = Ok i <-> stands_at a b v i /\ from_bound start i /\ below_bound stop i) /\
  forall e, seq_index a v start stop = Err e -> e = EValue.
Proof.
  intros H. unfold seq_index. change (pair_len a) with 2. set (s0 := if start <? 0 then Z.max (2 + start) 0 else start). set (t0 := option_map (fun s => if s <? 0 then s + 2 else s) stop).
  assert (P : 0 <= s0) by (subst s0; destruct (start <? 0) eqn:E; lia).
  assert (LO : forall i, stands_at a b v i -> s0 <= i <-> from_bound start i).
  { intros i I. assert (0 <= i) by (unfold stands_at in I; lia). unfold from_bound. subst s0. destruct (start <? 0) eqn:E; lia. }
  assert (HI : forall i, (forall s, t0 = Some s -> i < s) <-> below_bound stop i).
  { intros i. unfold below_bound. subst t0. destruct stop as [s|]; cbn [option_map].
    - split; intros K q Q; injection Q as <-.
      + specialize (K _ eq_refl). destruct (s <? 0) eqn:E; lia.
      + specialize (K _ eq_refl). destruct (s <? 0) eqn:E; lia.
    - split; intros _ q Q; discriminate Q. }
  assert (U : forall i j, stands_at a b v i -> stands_at a b v j -> i = j).
  { intros i j [[-> X]|[-> X]] [[-> Y]|[-> Y]]; auto; [destruct (kinds _ _ _ X Y)|destruct (kinds _ _ _ Y X)]. }
  destruct (index_from_iff a b v t0 H s0 P) as [[E N]|(i & E & I & L & T)]; rewrite E; split.
  - intros i. split; [intros K; discriminate K|]. intros (I & L & T). exfalso. apply (N i I); [apply LO; assumption|apply HI, T].
  - intros e K. now injection K as <-.
  - intros j. split.
    + intros K. injection K as <-. split; [exact I|]. split; [apply LO; assumption|apply HI, T].
    + intros (J & _). now rewrite (U i j I J).
  - intros e K. discriminate K.
Qed.
