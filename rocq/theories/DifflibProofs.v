(** Two sequences have ratio 1 exactly if their elements are equal one by one. *)
From Verif Require Import Base Difflib.
From Coq Require Import Lia ZifyBool ZifyNat Sorted.

(** ** Matching blocks consist of equal elements. *)

(** Just before places i and j there are v pairs of equal elements. *)
Definition run {A} (eqb : A -> A -> bool) a b (alo blo i j v : nat) : Prop :=
  (alo + v <= i /\ blo + v <= j /\ forall t, t < v -> same eqb a b (i - 1 - t) (j - 1 - t) = true)%nat.
Definition block {A} (eqb : A -> A -> bool) a b (alo ahi blo bhi : nat) (best : nat * nat * nat) : Prop :=
  let '(i, j, k) := best in
  (alo <= i /\ blo <= j /\ i + k <= ahi /\ j + k <= bhi /\ forall t, t < k -> same eqb a b (i + t) (j + t) = true)%nat.
Definition rows {A} (eqb : A -> A -> bool) a b (alo blo i : nat) (d : list (nat * nat)) : Prop :=
  forall j, (blo <= j)%nat -> run eqb a b alo blo i (S j) (get j d) .

Lemma run_block {A} (eqb : A -> A -> bool) a b alo blo ahi bhi i j k :
  run eqb a b alo blo i j k -> (i <= ahi)%nat -> (j <= bhi)%nat -> block eqb a b alo ahi blo bhi ((i - k)%nat, (j - k)%nat, k).
Proof.
  intros (R1 & R2 & R3) H1 H2. repeat split; try lia. intros t T. specialize (R3 (k - 1 - t)%nat ltac:(lia)).
  replace (i - k + t)%nat with (i - 1 - (k - 1 - t))%nat by lia. replace (j - k + t)%nat with (j - 1 - (k - 1 - t))%nat by lia. exact R3.
Qed.

Lemma before_run {A} (eqb : A -> A -> bool) a b alo blo i j d : rows eqb a b alo blo i d -> (alo <= i)%nat -> (blo <= j)%nat ->
  run eqb a b alo blo i j (if (j =? blo)%nat then 0%nat else before j d).
Proof.
  intros R I J. destruct (j =? blo)%nat eqn:E.
  - repeat split; lia.
  - destruct j as [|j]; [lia|]. apply R. lia.
Qed.

Lemma b2j_same {A} (eqb : A -> A -> bool) a b i x j : nth_error a i = Some x -> In j (b2j eqb b x) -> same eqb a b i j = true.
Proof.
  intros H I. unfold same. rewrite H. unfold b2j in I. destruct (_ && _) in I; [destruct I|]. apply filter_In in I. apply I.
Qed.

(** Rows never hold a run that starts before blo. *)
Definition tight (blo : nat) (d : list (nat * nat)) : Prop := forall k v, In (k, v) d -> (blo <= k)%nat.
Lemma get_tight blo d j : tight blo d -> (j < blo)%nat -> get j d = 0%nat.
Proof.
  induction d as [|[k v] d IH]; intros T J; [reflexivity|]. cbn [get]. assert (K : (blo <= k)%nat) by (apply (T k v); now left).
  destruct (k =? j)%nat eqn:E; [lia|]. apply IH; [|exact J]. intros k' v' I. apply (T k' v'). now right.
Qed.
Lemma before_tight blo d j : tight blo d -> (j <= blo)%nat -> before j d = 0%nat.
Proof. intros T J. destruct j as [|j]; [reflexivity|]. apply (get_tight blo); [exact T|lia]. Qed.

Lemma scan_row_block {A} (eqb : A -> A -> bool) a b alo ahi blo bhi x i : nth_error a i = Some x -> (alo <= i < ahi)%nat ->
  forall js old new best,
  (forall j, In j js -> In j (b2j eqb b x)) -> rows eqb a b alo blo i old -> tight blo old ->
  rows eqb a b alo blo (S i) new -> tight blo new -> block eqb a b alo ahi blo bhi best ->
  let '(new', best') := scan_row js i blo bhi old new best in
  rows eqb a b alo blo (S i) new' /\ tight blo new' /\ block eqb a b alo ahi blo bhi best'.
Proof.
  intros X I js. induction js as [|j js IH]; intros old new best J O T N Tn B; [split; [|split]; assumption|].
  cbn [scan_row]. destruct (j <? blo)%nat eqn:E1; [apply IH; try assumption; intros; apply J; now right|].
  destruct (bhi <=? j)%nat eqn:E2; [split; [|split]; assumption|].
  set (k := S (before j old)).
  assert (K : run eqb a b alo blo (S i) (S j) k).
  { pose proof (before_run eqb a b alo blo i j old O ltac:(lia) ltac:(lia)) as R.
    assert (R' : run eqb a b alo blo i j (before j old)).
    { destruct (j =? blo)%nat eqn:E; [|exact R]. rewrite (before_tight blo); [exact R|exact T|lia]. }
    destruct R' as (R1 & R2 & R3). unfold k. repeat split; try lia. intros t Ht. destruct t as [|t].
    - replace (S i - 1 - 0)%nat with i by lia. replace (S j - 1 - 0)%nat with j by lia.
      apply (b2j_same eqb a b i x); [exact X|]. apply J. now left.
    - specialize (R3 t ltac:(lia)). replace (S i - 1 - S t)%nat with (i - 1 - t)%nat by lia.
      replace (S j - 1 - S t)%nat with (j - 1 - t)%nat by lia. exact R3. }
  apply IH; try assumption.
  - intros; apply J; now right.
  - intros j' J'. cbn [get]. destruct (j =? j')%nat eqn:E; [|apply N; exact J']. assert (j = j') by lia. subst j'. exact K.
  - intros k' v [H|H]; [|apply (Tn k' v H)]. assert (j = k') by congruence. lia.
  - destruct (snd best <? k)%nat; [|exact B]. replace (i + 1 - k)%nat with (S i - k)%nat by lia. replace (j + 1 - k)%nat with (S j - k)%nat by lia.
    apply (run_block eqb a b alo blo); [exact K|lia|lia].
Qed.

Lemma scan_block {A} (eqb : A -> A -> bool) a b alo ahi blo bhi : forall n i old best,
  (alo <= i)%nat -> (i + n <= ahi)%nat -> rows eqb a b alo blo i old -> tight blo old -> block eqb a b alo ahi blo bhi best ->
  block eqb a b alo ahi blo bhi (scan eqb a b blo bhi n i old best).
Proof.
  induction n as [|n IH]; intros i old best I N O T B; [exact B|]. cbn [scan].
  assert (E0 : rows eqb a b alo blo (S i) []) by (intros j J; repeat split; cbn [get]; lia).
  destruct (nth_error a i) as [x|] eqn:X.
  - pose proof (scan_row_block eqb a b alo ahi blo bhi x i X ltac:(lia) (b2j eqb b x) old [] best
      (fun j H => H) O T E0 ltac:(intros k v []) B) as S0.
    destruct (scan_row (b2j eqb b x) i blo bhi old [] best) as [new best']. destruct S0 as (S1 & S2 & S3).
    apply IH; try assumption; lia.
  - cbn [scan_row]. apply IH; try assumption; try lia. intros k v [].
Qed.

Lemma grow_left_block {A} (eqb : A -> A -> bool) a b alo ahi blo bhi : forall i j k,
  block eqb a b alo ahi blo bhi (i, j, k) -> block eqb a b alo ahi blo bhi (grow_left eqb a b alo blo i j k).
Proof.
  induction i as [|i IH]; intros j k B; [exact B|]. destruct j as [|j]; [exact B|]. cbn [grow_left].
  destruct ((alo <? S i)%nat && (blo <? S j)%nat && same eqb a b i j) eqn:E; [|exact B].
  apply andb_prop in E as [E E3]. apply andb_prop in E as [E1 E2]. apply IH. destruct B as (B1 & B2 & B3 & B4 & B5).
  repeat split; try lia. intros t Ht. destruct t as [|t]; [rewrite !Nat.add_0_r; exact E3|].
  specialize (B5 t ltac:(lia)). replace (i + S t)%nat with (S i + t)%nat by lia. replace (j + S t)%nat with (S j + t)%nat by lia. exact B5.
Qed.
Lemma grow_right_block {A} (eqb : A -> A -> bool) a b alo ahi blo bhi i j : forall fuel k,
  block eqb a b alo ahi blo bhi (i, j, k) -> block eqb a b alo ahi blo bhi (i, j, grow_right eqb a b ahi bhi i j fuel k).
Proof.
  induction fuel as [|fuel IH]; intros k B; [exact B|]. cbn [grow_right].
  destruct ((i + k <? ahi)%nat && (j + k <? bhi)%nat && same eqb a b (i + k) (j + k)) eqn:E; [|exact B].
  apply andb_prop in E as [E E3]. apply andb_prop in E as [E1 E2]. apply IH. destruct B as (B1 & B2 & B3 & B4 & B5).
  repeat split; try lia. intros t Ht. destruct (Nat.eq_dec t k) as [->|Nt]; [exact E3|]. apply B5. lia.
Qed.

Lemma find_block {A} (eqb : A -> A -> bool) a b alo ahi blo bhi : (alo <= ahi)%nat -> (blo <= bhi)%nat ->
  block eqb a b alo ahi blo bhi (find_longest_match eqb a b alo ahi blo bhi).
Proof.
  intros HA HB. unfold find_longest_match.
  assert (S0 : block eqb a b alo ahi blo bhi (scan eqb a b blo bhi (ahi - alo) alo [] (alo, blo, 0%nat))).
  { apply scan_block; try lia.
    - intros j J. repeat split; cbn [get]; lia.
    - intros k v [].
    - repeat split; lia. }
  destruct (scan eqb a b blo bhi (ahi - alo) alo [] (alo, blo, 0%nat)) as [[i j] k].
  pose proof (grow_left_block eqb a b alo ahi blo bhi i j k S0) as G.
  destruct (grow_left eqb a b alo blo i j k) as [[i' j'] k']. apply grow_right_block. exact G.
Qed.

(** Pairs of equal elements: n of them from i and j on. *)
Definition pairs {A} (eqb : A -> A -> bool) a b (i j n : nat) : Prop := forall t, (t < n)%nat -> same eqb a b (i + t) (j + t) = true.

Lemma matches_bound {A} (eqb : A -> A -> bool) a b : forall fuel alo ahi blo bhi, (alo <= ahi)%nat -> (blo <= bhi)%nat ->
  (matches eqb a b fuel alo ahi blo bhi <= ahi - alo /\ matches eqb a b fuel alo ahi blo bhi <= bhi - blo)%nat /\
  (matches eqb a b fuel alo ahi blo bhi = ahi - alo -> ahi - alo = bhi - blo -> pairs eqb a b alo blo (ahi - alo))%nat.
Proof.
  induction fuel as [|fuel IH]; intros alo ahi blo bhi HA HB.
  - cbn [matches]. split; [lia|]. intros E _ t Ht. lia.
  - cbn [matches]. pose proof (find_block eqb a b alo ahi blo bhi HA HB) as B.
    destruct (find_longest_match eqb a b alo ahi blo bhi) as [[i j] k]. destruct B as (B1 & B2 & B3 & B4 & B5).
    destruct (k =? 0)%nat eqn:K; [split; [lia|]; intros E _ t Ht; lia|].
    destruct (IH alo i blo j B1 B2) as [[L1 L2] L3]. destruct (IH (i + k)%nat ahi (j + k)%nat bhi B3 B4) as [[R1 R2] R3].
    set (l := matches eqb a b fuel alo i blo j) in *. set (r := matches eqb a b fuel (i + k) ahi (j + k) bhi) in *.
    set (l' := if (alo <? i)%nat && (blo <? j)%nat then l else 0%nat). set (r' := if (i + k <? ahi)%nat && (j + k <? bhi)%nat then r else 0%nat).
    assert (L : (l' <= i - alo /\ l' <= j - blo /\ (l' = i - alo -> i - alo = j - blo -> l = i - alo))%nat).
    { unfold l'. destruct ((alo <? i)%nat && (blo <? j)%nat) eqn:E; lia. }
    assert (R : (r' <= ahi - (i + k) /\ r' <= bhi - (j + k) /\ (r' = ahi - (i + k) -> ahi - (i + k) = bhi - (j + k) -> r = ahi - (i + k)))%nat).
    { unfold r'. destruct ((i + k <? ahi)%nat && (j + k <? bhi)%nat) eqn:E; lia. }
    clearbody l r l' r'. split; [lia|]. intros E1 E2.
    assert (E3 : (l' = i - alo /\ i - alo = j - blo /\ r' = ahi - (i + k) /\ ahi - (i + k) = bhi - (j + k))%nat) by lia.
    destruct E3 as (E3 & E4 & E5 & E6). destruct L as (_ & _ & L). destruct R as (_ & _ & R).
    specialize (L3 (L E3 E4) E4). specialize (R3 (R E5 E6) E6). clear L R E1 E2 E3 E5 L1 L2 R1 R2.
    intros t Ht. destruct (Nat.lt_ge_cases t (i - alo)) as [T1|T1]; [apply L3; exact T1|].
    destruct (Nat.lt_ge_cases t (i - alo + k)) as [T2|T2].
    + specialize (B5 (t - (i - alo))%nat ltac:(lia)). replace (alo + t)%nat with (i + (t - (i - alo)))%nat by lia.
      replace (blo + t)%nat with (j + (t - (i - alo)))%nat by lia. exact B5.
    + specialize (R3 (t - (i - alo + k))%nat ltac:(lia)). replace (alo + t)%nat with (i + k + (t - (i - alo + k)))%nat by lia.
      replace (blo + t)%nat with (j + k + (t - (i - alo + k)))%nat by lia. exact R3.
Qed.

Lemma pairs_forall {A} (eqb : A -> A -> bool) : forall a b, length a = length b -> pairs eqb a b 0 0 (length a) ->
  Forall2 (fun x y => eqb x y = true) a b.
Proof.
  induction a as [|x a IH]; intros [|y b] L P; cbn [length] in L; try lia; [constructor|]. constructor.
  - apply (P 0%nat). cbn [length]. lia.
  - apply IH; [lia|]. intros t Ht. apply (P (S t)). cbn [length]. lia.
Qed.
Lemma forall_same {A} (eqb : A -> A -> bool) a b : Forall2 (fun x y => eqb x y = true) a b ->
  length a = length b /\ forall i, (i < length a)%nat -> same eqb a b i i = true.
Proof.
  induction 1 as [|x y a b E F [L S]]; [split; [reflexivity|intros i I; cbn [length] in I; lia]|]. split; [cbn [length]; lia|].
  intros [|i] I; [exact E|]. apply S. cbn [length] in I. lia.
Qed.

(** ** If the sequences are equal as far as they go, the first block is all of that. *)
Definition level {A} (eqb : A -> A -> bool) (a b : list A) : Prop := forall i, (i < length a)%nat -> (i < length b)%nat -> same eqb a b i i = true.
Definition hit {A} (eqb : A -> A -> bool) (a b : list A) (i j : nat) : bool :=
  match nth_error a i with Some x => existsb (Nat.eqb j) (b2j eqb b x) | None => false end.
(** How many pairs in a row, popular elements excepted, end just before i and j. *)
Fixpoint depth {A} (eqb : A -> A -> bool) (a b : list A) (i j : nat) : nat :=
  match i, j with S i, S j => if hit eqb a b i j then S (depth eqb a b i j) else 0%nat | _, _ => 0%nat end.

Lemma in_b2j {A} (eqb : A -> A -> bool) (b : list A) x j : existsb (Nat.eqb j) (b2j eqb b x) = true <-> In j (b2j eqb b x).
Proof.
  rewrite existsb_exists. split; [intros (k & I & E); assert (k = j) by lia; now subst|intros I; exists j; split; [exact I|lia]].
Qed.

(** Equal elements have the same places. *)
Lemma b2j_equal {A} (eqb : A -> A -> bool) (b : list A) x y : (forall z, eqb x z = eqb y z) -> b2j eqb b x = b2j eqb b y.
Proof.
  intros H. unfold b2j. assert (E : filter (at_is (eqb x) b) (seq 0 (length b)) = filter (at_is (eqb y) b) (seq 0 (length b))).
  { apply filter_ext. intros i. unfold at_is. destruct (nth_error b i); [apply H|reflexivity]. }
  rewrite E. reflexivity.
Qed.

(** Hits are reflected on the diagonal. *)
Lemma hit_diagonal {A} (eqb : A -> A -> bool) a b i j :
  (forall x y, eqb x y = true -> eqb y x = true) -> (forall x y z, eqb x y = true -> eqb y z = true -> eqb x z = true) ->
  level eqb a b -> hit eqb a b i j = true -> hit eqb a b (Nat.min i j) (Nat.min i j) = true.
Proof.
  intros Sy Tr S0 H. unfold hit in H.
  destruct (nth_error a i) as [x|] eqn:X; [|discriminate H]. pose proof (proj1 (in_b2j _ _ _ _) H) as I. clear H.
  assert (Ij : (j < length b)%nat /\ at_is (eqb x) b j = true /\ forall k, (k < length b)%nat -> at_is (eqb x) b k = true -> In k (b2j eqb b x)).
  { unfold b2j in *. destruct (_ && _); [destruct I|]. apply filter_In in I as [I1 I2]. apply in_seq in I1. repeat split; [lia|exact I2|].
    intros k K1 K2. apply filter_In. split; [apply in_seq; lia|exact K2]. }
  destruct Ij as (I1 & I2 & I3).
  assert (Li : (i < length a)%nat) by (apply nth_error_Some; congruence).
  destruct (Nat.le_gt_cases i j) as [C|C].
  - rewrite Nat.min_l by exact C. unfold hit. rewrite X. apply in_b2j. apply I3; [lia|]. specialize (S0 i Li ltac:(lia)). unfold same in S0. rewrite X in S0. exact S0.
  - rewrite Nat.min_r by lia. assert (Lj : (j < length a)%nat) by lia. destruct (nth_error a j) as [y|] eqn:Y; [|apply nth_error_Some in Lj; congruence].
    specialize (S0 j Lj I1). unfold same in S0. rewrite Y in S0. unfold hit. rewrite Y. apply in_b2j.
    assert (Exy : eqb x y = true).
    { unfold at_is in I2, S0. destruct (nth_error b j) as [z|]; [|discriminate I2]. apply (Tr x z); [exact I2|]. apply Sy. exact S0. }
    rewrite (b2j_equal eqb b y x); [apply I3; [exact I1|exact I2]|].
    intros z. destruct (eqb y z) eqn:E1, (eqb x z) eqn:E2; try reflexivity.
    + rewrite (Tr x y z Exy E1) in E2. discriminate E2.
    + rewrite (Tr y x z (Sy x y Exy) E2) in E1. discriminate E1.
Qed.
Lemma depth_diagonal {A} (eqb : A -> A -> bool) a b :
  (forall x y, eqb x y = true -> eqb y x = true) -> (forall x y z, eqb x y = true -> eqb y z = true -> eqb x z = true) ->
  level eqb a b -> forall i j, (depth eqb a b i j <= depth eqb a b (Nat.min i j) (Nat.min i j))%nat.
Proof.
  intros Sy Tr F. induction i as [|i IH]; intros [|j]; cbn [depth Nat.min]; try lia.
  destruct (hit eqb a b i j) eqn:E; [|lia]. rewrite (hit_diagonal eqb a b i j Sy Tr F E). specialize (IH j). lia.
Qed.

Lemma b2j_sorted {A} (eqb : A -> A -> bool) (b : list A) x : StronglySorted lt (b2j eqb b x).
Proof.
  unfold b2j. destruct (_ && _); [constructor|]. generalize (length b) 0%nat. induction n as [|n IH]; intros s; [constructor|].
  cbn [seq filter]. destruct (at_is (eqb x) b s); [|apply IH]. constructor; [apply IH|]. apply Forall_forall. intros k K.
  apply filter_In in K as [K _]. apply in_seq in K. lia.
Qed.

(** The row of i holds the depths. *)
Definition row_is {A} (eqb : A -> A -> bool) a b (i : nat) (d : list (nat * nat)) : Prop :=
  forall j, get j d = depth eqb a b i (S j).

Lemma scan_row_diagonal {A} (eqb : A -> A -> bool) a b x i : nth_error a i = Some x ->
  (forall x y, eqb x y = true -> eqb y x = true) -> (forall x y z, eqb x y = true -> eqb y z = true -> eqb x z = true) ->
  level eqb a b ->
  forall js old new p k, (forall j, before j old = depth eqb a b i j) ->
  (forall j, In j js -> In j (b2j eqb b x)) -> StronglySorted lt js ->
  (hit eqb a b i i = true -> In i js \/ depth eqb a b (S i) (S i) <= k)%nat ->
  (forall d, d <= i -> depth eqb a b d d <= k)%nat ->
  let '(new', best) := scan_row js i 0 (length b) old new (p, p, k) in
  (forall j, get j new' = if existsb (Nat.eqb j) js then depth eqb a b (S i) (S j) else get j new) /\
  exists p' k', best = (p', p', k') /\ (forall d, d <= S i -> depth eqb a b d d <= k')%nat.
Proof.
  intros X Sy Tr F js. induction js as [|j js IH]; intros old new p k O J So D K.
  - split; [reflexivity|]. exists p, k. split; [reflexivity|]. intros d Hd. destruct (Nat.eq_dec d (S i)) as [->|N]; [|apply K; lia].
    cbn [depth]. destruct (hit eqb a b i i) eqn:E; [|lia]. destruct (D eq_refl) as [[]|H]. cbn [depth] in H. rewrite E in H. exact H.
  - cbn [scan_row]. assert (Hj : hit eqb a b i j = true) by (unfold hit; rewrite X; apply in_b2j; apply J; now left).
    assert (Lj : (j < length b)%nat).
    { assert (I : In j (b2j eqb b x)) by (apply J; now left). unfold b2j in I. destruct (_ && _) in I; [destruct I|].
      apply filter_In in I as [I _]. apply in_seq in I. lia. }
    change (j <? 0)%nat with false. assert (E2 : (length b <=? j)%nat = false) by lia. cbv iota. rewrite E2.
    rewrite (O j). assert (Kj : S (depth eqb a b i j) = depth eqb a b (S i) (S j)) by (cbn [depth]; rewrite Hj; reflexivity).
    rewrite Kj. cbn [snd].
    assert (Soj : StronglySorted lt js /\ Forall (lt j) js) by (inversion So; split; assumption). destruct Soj as [So1 So2].
    destruct (k <? depth eqb a b (S i) (S j))%nat eqn:E.
    + assert (Eij : j = i).
      { destruct (Nat.lt_trichotomy j i) as [C|[C|C]]; [|exact C|].
        - pose proof (depth_diagonal eqb a b Sy Tr F (S i) (S j)) as DD. rewrite Nat.min_r in DD by lia. specialize (K (S j) ltac:(lia)). lia.
        - pose proof (depth_diagonal eqb a b Sy Tr F (S i) (S j)) as DD. rewrite Nat.min_l in DD by lia. pose proof (hit_diagonal eqb a b i j Sy Tr F Hj) as Hi. rewrite Nat.min_l in Hi by lia.
          destruct (D Hi) as [[C'|C']|C']; [lia| |lia]. rewrite Forall_forall in So2. specialize (So2 i C'). lia. }
      subst j. set (k' := depth eqb a b (S i) (S i)) in *.
      specialize (IH old ((i, k') :: new) (i + 1 - k')%nat k' O (fun j H => J j (or_intror H)) So1).
      assert (D' : hit eqb a b i i = true -> In i js \/ (depth eqb a b (S i) (S i) <= k')%nat) by (intros _; right; unfold k'; lia).
      assert (K' : (forall d, d <= i -> depth eqb a b d d <= k')%nat) by (intros d Hd; specialize (K d Hd); lia).
      specialize (IH D' K'). destruct (scan_row js i 0 (length b) old ((i, k') :: new) ((i + 1 - k')%nat, (i + 1 - k')%nat, k')) as [new' best].
      destruct IH as [G B]. split; [|exact B]. intros j. rewrite (G j). cbn [existsb get]. destruct (existsb (Nat.eqb j) js).
      * rewrite orb_true_r. reflexivity.
      * rewrite orb_false_r. rewrite (Nat.eqb_sym j i). destruct (i =? j)%nat eqn:Ei; [|reflexivity].
        assert (i = j) by lia. subst j. reflexivity.
    + specialize (IH old ((j, depth eqb a b (S i) (S j)) :: new) p k O (fun j H => J j (or_intror H)) So1).
      assert (D' : hit eqb a b i i = true -> In i js \/ (depth eqb a b (S i) (S i) <= k)%nat).
      { intros Hi. destruct (D Hi) as [[C|C]|C]; [|now left|now right]. subst j. right. lia. }
      specialize (IH D' K). destruct (scan_row js i 0 (length b) old ((j, depth eqb a b (S i) (S j)) :: new) (p, p, k)) as [new' best].
      destruct IH as [G B]. split; [|exact B]. intros j'. rewrite (G j'). cbn [existsb get]. destruct (existsb (Nat.eqb j') js).
      * rewrite orb_true_r. reflexivity.
      * rewrite orb_false_r. rewrite (Nat.eqb_sym j' j). destruct (j =? j')%nat eqn:Ei; [|reflexivity].
        assert (j = j') by lia. subst j'. reflexivity.
Qed.

Lemma scan_diagonal {A} (eqb : A -> A -> bool) a b :
  (forall x y, eqb x y = true -> eqb y x = true) -> (forall x y z, eqb x y = true -> eqb y z = true -> eqb x z = true) ->
  level eqb a b -> forall n i old p k, (i + n <= length a)%nat ->
  (forall j, before j old = depth eqb a b i j) -> (forall d, d <= i -> depth eqb a b d d <= k)%nat ->
  exists p' k', scan eqb a b 0 (length b) n i old (p, p, k) = (p', p', k').
Proof.
  intros Sy Tr F. induction n as [|n IH]; intros i old p k L O K; [exists p, k; reflexivity|]. cbn [scan].
  destruct (nth_error a i) as [x|] eqn:X; [|apply nth_error_None in X; lia].
  assert (D : hit eqb a b i i = true -> In i (b2j eqb b x) \/ (depth eqb a b (S i) (S i) <= k)%nat).
  { intros H. left. unfold hit in H. rewrite X in H. apply in_b2j. exact H. }
  pose proof (scan_row_diagonal eqb a b x i X Sy Tr F (b2j eqb b x) old [] p k O (fun j H => H) (b2j_sorted eqb b x) D K) as R.
  destruct (scan_row (b2j eqb b x) i 0 (length b) old [] (p, p, k)) as [new best]. destruct R as [G (p' & k' & -> & K')].
  apply IH; [lia| |exact K']. intros [|j]; [reflexivity|]. cbn [before]. rewrite (G j). cbn [get depth]. unfold hit. rewrite X.
  destruct (existsb (Nat.eqb j) (b2j eqb b x)); reflexivity.
Qed.

Lemma grow_left_all {A} (eqb : A -> A -> bool) a b : forall p k, (forall i, (i < p)%nat -> same eqb a b i i = true) ->
  grow_left eqb a b 0 0 p p k = (0%nat, 0%nat, (p + k)%nat).
Proof.
  induction p as [|p IH]; intros k H; [reflexivity|]. cbn [grow_left]. rewrite (H p) by lia. change (0 <? S p)%nat with true. cbn [andb].
  rewrite IH by (intros i I; apply H; lia). f_equal. lia.
Qed.
Lemma grow_right_all {A} (eqb : A -> A -> bool) a b n m : (forall i, (i < n)%nat -> (i < m)%nat -> same eqb a b i i = true) -> forall fuel k, (k <= Nat.min n m)%nat -> (n - k <= fuel)%nat ->
  grow_right eqb a b n m 0 0 fuel k = Nat.min n m.
Proof.
  intros H. induction fuel as [|fuel IH]; intros k K Fu; cbn [grow_right]; [lia|]. rewrite !Nat.add_0_l.
  destruct (k <? n)%nat eqn:E; cbn [andb]; [|lia]. destruct (k <? m)%nat eqn:E'; cbn [andb]; [|lia]. rewrite H by lia. apply IH; lia.
Qed.

Lemma find_level {A} (eqb : A -> A -> bool) a b :
  (forall x y, eqb x y = true -> eqb y x = true) -> (forall x y z, eqb x y = true -> eqb y z = true -> eqb x z = true) ->
  level eqb a b -> find_longest_match eqb a b 0 (length a) 0 (length b) = (0%nat, 0%nat, Nat.min (length a) (length b)).
Proof.
  intros Sy Tr H. unfold find_longest_match.
  assert (S0 : block eqb a b 0 (length a) 0 (length b) (scan eqb a b 0 (length b) (length a - 0) 0 [] (0%nat, 0%nat, 0%nat))).
  { apply scan_block; try lia.
    - intros j J. repeat split; cbn [get]; lia.
    - intros k v [].
    - repeat split; lia. }
  destruct (scan_diagonal eqb a b Sy Tr H (length a - 0) 0 [] 0%nat 0%nat) as (p & k & E).
  - lia.
  - intros [|j]; reflexivity.
  - intros d D. assert (d = 0%nat) by lia. subst d. cbn [depth]. lia.
  - rewrite E in *. destruct S0 as (_ & _ & B & B' & _). rewrite grow_left_all by (intros i I; apply H; lia).
    rewrite grow_right_all; [reflexivity|exact H|lia|lia].
Qed.
Lemma matches_equal {A} (eqb : A -> A -> bool) a b :
  (forall x y, eqb x y = true -> eqb y x = true) -> (forall x y z, eqb x y = true -> eqb y z = true -> eqb x z = true) ->
  Forall2 (fun x y => eqb x y = true) a b -> matches eqb a b (S (length a)) 0 (length a) 0 (length b) = length a.
Proof.
  intros Sy Tr F. destruct (forall_same eqb a b F) as [L H].
  assert (E : find_longest_match eqb a b 0 (length a) 0 (length b) = (0%nat, 0%nat, length a)).
  { rewrite (find_level eqb a b Sy Tr) by (intros i I _; apply H, I). rewrite <- L, Nat.min_id. reflexivity. }
  cbn [matches]. rewrite E. destruct (length a) as [|n]; [reflexivity|]. cbn [Nat.eqb]. change (0 <? 0)%nat with false. cbn [andb].
  rewrite Nat.add_0_l. assert (N : (S n <? S n)%nat = false) by lia. rewrite N. cbn [andb]. lia.
Qed.

Theorem ratio_equal {A} (eqb : A -> A -> bool) a b :
  (forall x y, eqb x y = true -> eqb y x = true) -> (forall x y z, eqb x y = true -> eqb y z = true -> eqb x z = true) ->
  ratio_one eqb a b = true <-> Forall2 (fun x y => eqb x y = true) a b.
Proof.
  intros Sy Tr. unfold ratio_one. split; intros H.
  - destruct (matches_bound eqb a b (S (length a)) 0 (length a) 0 (length b)) as [[B1 B2] P]; try lia.
    assert (L : length a = length b) by lia. apply pairs_forall; [exact L|]. specialize (P ltac:(lia) ltac:(lia)).
    rewrite Nat.sub_0_r in P. exact P.
  - rewrite matches_equal by assumption. pose proof (proj1 (forall_same eqb a b H)). lia.
Qed.
