(** What is said about two payloads. *)
From Coq Require Import Lia ZifyBool ZifyNat.
From Verif Require Import Base BaseProofs Difflib DifflibProofs Opcodes OpcodesSpec OpcodesProofs.

(** The first operation that is not of equal pieces is at the same place of both, and all before it is alike. *)
Lemma first_change {A} (eqb : A -> A -> bool) i j a b l : script eqb i j a b l -> forall o r, filter (fun o => negb (is_equal o)) l = o :: r ->
  exists d, op_i1 o = (i + d)%nat /\ op_j1 o = (j + d)%nat /\ (d <= length a)%nat /\ (d <= length b)%nat /\ alike_one_by_one eqb (firstn d a) (firstn d b) /\ (d < length a \/ d < length b)%nat.
Proof.
  induction 1 as [i j|i j u v a b l U E S IH|i j u v a b l U V S IH|i j u a b l U S IH|i j v a b l V S IH]; intros o r H; cbn [filter is_equal op_tag negb] in H.
  - discriminate H.
  - destruct (IH o r H) as (d & I & J & LA & LB & F & N). exists (length u + d)%nat. assert (L : length u = length v) by exact (proj1 (forall_same eqb u v E)). rewrite !app_length.
    split; [lia|]. split; [lia|]. split; [lia|]. split; [lia|]. split; [|lia]. rewrite L at 2. rewrite !firstn_app_2. apply Forall2_app; assumption.
  - injection H as <- _. exists 0%nat. cbn [op_i1 op_j1 firstn]. rewrite !app_length. destruct u; [destruct (U eq_refl)|]. cbn [length]. repeat split; try lia. constructor.
  - injection H as <- _. exists 0%nat. cbn [op_i1 op_j1 firstn]. rewrite !app_length. destruct u; [destruct (U eq_refl)|]. cbn [length]. repeat split; try lia. constructor.
  - injection H as <- _. exists 0%nat. cbn [op_i1 op_j1 firstn]. rewrite !app_length. destruct v; [destruct (V eq_refl)|]. cbn [length]. repeat split; try lia. constructor.
Qed.
Lemma no_change l : filter (fun o => negb (is_equal o)) l = [] -> forall o, In o l -> is_equal o = true.
Proof.
  intros H o O. destruct (is_equal o) eqn:E; [reflexivity|]. assert (I : In o (filter (fun o => negb (is_equal o)) l)) by (apply filter_In; rewrite E; auto). rewrite H in I. destruct I.
Qed.
Lemma alike_level {A} (eqb : A -> A -> bool) a b : level eqb a b <-> alike_one_by_one eqb (firstn (Nat.min (length a) (length b)) a) (firstn (Nat.min (length a) (length b)) b).
Proof.
  set (n := Nat.min (length a) (length b)). split.
  - intros L. apply pairs_forall; [rewrite !firstn_length; lia|]. intros t T. rewrite firstn_length in T. cbn [Nat.add]. specialize (L t ltac:(lia) ltac:(lia)). unfold same, at_is in *.
    rewrite !nth_firstn by lia. exact L.
  - intros F i I J. destruct (forall_same eqb _ _ F) as [_ S]. rewrite firstn_length in S. specialize (S i ltac:(lia)). unfold same, at_is in *. rewrite !nth_firstn in S by lia. exact S.
Qed.
Lemma level_dec {A} (eqb : A -> A -> bool) a b : level eqb a b \/ exists j u v, nth_error a j = Some u /\ nth_error b j = Some v /\ eqb u v = false.
Proof.
  revert b. induction a as [|x a IH]; intros b; [left; intros i I; cbn [length] in I; lia|]. destruct b as [|y b]; [left; intros i I J; cbn [length] in J; lia|].
  destruct (eqb x y) eqn:E; [|right; exists 0%nat, x, y; auto]. destruct (IH b) as [L|(j & u & v & D)]; [left|right; exists (S j), u, v; exact D].
  intros [|i] I J; [exact E|]. apply L; cbn [length] in *; lia.
Qed.
Lemma firstn_short {A} (l : list A) n : (length l <= n)%nat -> firstn n l = l.
Proof. apply firstn_all2. Qed.
(** For sequences that are equal as far as they go the change is at the end of the shorter one. *)
Lemma level_opcodes {A} (eqb : A -> A -> bool) a b :
  (forall x y, eqb x y = true -> eqb y x = true) -> (forall x y z, eqb x y = true -> eqb y z = true -> eqb x z = true) -> level eqb a b ->
  exists m, joined eqb a b = m /\ m = block_of 0 0 (Nat.min (length a) (length b)).
Proof.
  intros Sy Tr L. eexists. split; [reflexivity|]. unfold joined. rewrite sorted_blocks. cbn [in_order]. rewrite (find_level eqb a b Sy Tr L). set (n := Nat.min _ _). unfold block_of.
  destruct (n =? 0)%nat eqn:E; [reflexivity|]. change (0 <? 0)%nat with false. cbn [andb app Nat.add]. assert (X : (n <? length a)%nat && (n <? length b)%nat = false) by lia. rewrite X.
  cbn [join Nat.add]. change (0 =? 0)%nat with true. cbn [andb]. unfold block_of. rewrite E. reflexivity.
Qed.
Lemma level_first {A} (eqb : A -> A -> bool) a b :
  (forall x y, eqb x y = true -> eqb y x = true) -> (forall x y z, eqb x y = true -> eqb y z = true -> eqb x z = true) -> level eqb a b -> length a <> length b ->
  exists o, filter (fun o => negb (is_equal o)) (opcodes eqb a b) = [o] /\ op_i1 o = Nat.min (length a) (length b).
Proof.
  intros Sy Tr L N. destruct (level_opcodes eqb a b Sy Tr L) as (m & M & E). unfold opcodes, matching_blocks. fold (joined eqb a b). rewrite M, E. set (n := Nat.min (length a) (length b)) in *. unfold block_of.
  assert (C : exists o, change n (length a) n (length b) = [o] /\ is_equal o = false /\ op_i1 o = n).
  { unfold change. destruct (n <? length a)%nat eqn:E1; destruct (n <? length b)%nat eqn:E2; cbn [andb]; first [eexists; repeat split; reflexivity | exfalso; lia]. }
  destruct C as (o & C & O & P). exists o. split; [|exact P]. destruct (n =? 0)%nat eqn:Z; cbn [app opcodes_from].
  - assert (n = 0%nat) by lia. rewrite H in C. rewrite C. cbn [Nat.eqb app filter]. rewrite O. reflexivity.
  - cbn [Nat.add]. rewrite Z. unfold change at 1. rewrite Nat.ltb_irrefl. cbn [andb app filter is_equal op_tag negb]. rewrite C. cbn [Nat.eqb app filter]. rewrite O. reflexivity.
Qed.
Lemma elem_ok {A} (l : list A) i : (i < length l)%nat -> exists x, elem l i = Ok x /\ nth_error l i = Some x.
Proof. intros H. unfold elem. destruct (nth_error l i) as [x|] eqn:E; [exists x; auto|apply nth_error_None in E; lia]. Qed.

Theorem note_said {A} (eqb : A -> A -> bool) a b :
  (forall x y, eqb x y = true -> eqb y x = true) -> (forall x y z, eqb x y = true -> eqb y z = true -> eqb x z = true) ->
  exists verdict n, data_compare eqb false (Some a) (Some b) = Ok (verdict, n) /\ said eqb a b verdict n.
Proof.
  intros Sy Tr. cbn [data_compare]. destruct (ratio_one eqb a b) eqn:R.
  - exists true, AllSame. split; [reflexivity|]. split; [reflexivity|]. exact (proj1 (ratio_equal eqb a b Sy Tr) R).
  - assert (ND : ~ alike_one_by_one eqb a b) by (intros X; apply (ratio_equal eqb a b Sy Tr) in X; congruence).
    unfold describe. destruct (filter (fun o => negb (is_equal o)) (opcodes eqb a b)) as [|o r] eqn:F.
    { assert (X : ratio_one eqb a b = true) by (apply all_equal, no_change, F). congruence. }
    change (elem (o :: r) 0) with (@Ok op o). cbn [rbind].
    destruct (first_change eqb 0 0 a b _ (opcodes_script eqb a b) o r F) as (d & I & _ & LA & LB & FF & N). cbn [Nat.add] in I. rewrite I.
    destruct (d <? length a)%nat eqn:E1; [destruct (d <? length b)%nat eqn:E2|]; cbn [andb].
    + destruct (elem_ok a d ltac:(lia)) as (x & X1 & X2). destruct (elem_ok b d ltac:(lia)) as (y & Y1 & Y2). rewrite X1, Y1. cbn [rbind]. exists false, (Differ d x y). split; [reflexivity|].
      split; [reflexivity|]. split; [exact X2|]. split; [exact Y2|]. split; [exact FF|].
      destruct (level_dec eqb a b) as [L|(j & u & v & U & V & D)].
      * exfalso. destruct (Nat.eq_dec (length a) (length b)) as [EL|NL].
        -- apply ND. apply alike_level in L. rewrite EL, Nat.min_id in L. rewrite (firstn_short a), (firstn_short b) in L by lia. exact L.
        -- destruct (level_first eqb a b Sy Tr L NL) as (o' & F' & P). rewrite F' in F. assert (o' = o) by congruence. subst o'. lia.
      * exists j, u, v. split; [|auto]. destruct (Nat.lt_ge_cases j d) as [J|J]; [|exact J]. exfalso. destruct (forall_same eqb _ _ FF) as [_ S]. rewrite firstn_length in S. specialize (S j ltac:(lia)).
        unfold same, at_is in S. rewrite !nth_firstn, U, V in S by lia. congruence.
    + assert (DL : d = length b) by lia. clear I. subst d. destruct (elem_ok a (length b) ltac:(lia)) as (x & X1 & X2). rewrite X1. cbn [rbind]. exists false, (Extra true (zlen a - zlen b) (length b) x).
      split; [reflexivity|]. split; [reflexivity|]. split; [|auto]. split; [lia|]. rewrite (firstn_short b) in FF by lia. exact FF.
    + assert (DL : d = length a) by lia. clear I. subst d. destruct (elem_ok b (length a) ltac:(lia)) as (x & X1 & X2). rewrite X1. cbn [rbind]. exists false, (Extra false (zlen b - zlen a) (length a) x).
      split; [reflexivity|]. split; [reflexivity|]. split; [lia|]. rewrite (firstn_short a) in FF by lia. auto.
Qed.
(** It is never said that one goes on where the other ends unless it does, and always if it does. *)
Theorem note_extra {A} (eqb : A -> A -> bool) a b :
  (forall x y, eqb x y = true -> eqb y x = true) -> (forall x y z, eqb x y = true -> eqb y z = true -> eqb x z = true) -> goes_on eqb a b ->
  exists x, data_compare eqb false (Some a) (Some b) = Ok (false, Extra true (zlen a - zlen b) (length b) x).
Proof.
  intros Sy Tr [L G]. destruct (note_said eqb a b Sy Tr) as (v & n & H & S). destruct n as [| k l | | |i x y|[|] d i x]; cbn [said] in S; try (destruct S; fail).
  - destruct S as [_ S]. apply forall_same in S as [S _]. lia.
  - destruct S as (_ & X & Y & _ & j & u & w & J & U & W & E). exfalso. assert (JB : (j < length b)%nat) by (apply nth_error_Some; congruence).
    destruct (forall_same eqb _ _ G) as [_ S]. rewrite firstn_length in S. specialize (S j ltac:(lia)). unfold same, at_is in S. rewrite nth_firstn, U, W in S by lia. congruence.
  - destruct S as (-> & _ & -> & -> & _). exists x. exact H.
  - destruct S as (_ & S & _). lia.
Qed.
Theorem note_extra_b {A} (eqb : A -> A -> bool) a b :
  (forall x y, eqb x y = true -> eqb y x = true) -> (forall x y z, eqb x y = true -> eqb y z = true -> eqb x z = true) -> goes_on eqb b a ->
  exists x, data_compare eqb false (Some a) (Some b) = Ok (false, Extra false (zlen b - zlen a) (length a) x).
Proof.
  intros Sy Tr [L G]. destruct (note_said eqb a b Sy Tr) as (v & n & H & S). destruct n as [| k l | | |i x y|[|] d i x]; cbn [said] in S; try (destruct S; fail).
  - destruct S as [_ S]. apply forall_same in S as [S _]. lia.
  - destruct S as (_ & X & Y & _ & j & u & w & J & U & W & E). exfalso. assert (JA : (j < length a)%nat) by (apply nth_error_Some; congruence).
    destruct (forall_same eqb _ _ G) as [_ S]. rewrite firstn_length in S. specialize (S j ltac:(lia)). unfold same, at_is in S. rewrite nth_firstn, U, W in S by lia. apply Sy in S. congruence.
  - destruct S as (_ & [S _] & _). lia.
  - destruct S as (-> & _ & _ & -> & -> & _). exists x. exact H.
Qed.
(** There is always a line to show. *)
Theorem lines_ok {A} (eqb : A -> A -> bool) a b : exists r, lines eqb a b = Ok r /\ (r = None <-> ratio_one eqb a b = true) /\
  forall l more, r = Some (l, more) -> l <> [] /\ map (fun x => fst (fst x)) l = firstn 4 (opcodes eqb a b) /\ (more = true <-> (4 < length (opcodes eqb a b))%nat) /\
    forall o x y, In (o, x, y) l -> x = cut a (op_i1 o) (op_i2 o).
Proof.
  unfold lines. destruct (ratio_one eqb a b) eqn:R; [exists None; split; [reflexivity|]; split; [tauto|]; discriminate|].
  set (f := fun o : op => (o, cut a (op_i1 o) (op_i2 o), cut b (op_i1 o) (op_i2 o))). destruct (opcodes eqb a b) as [|o r] eqn:O.
  { assert (X : ratio_one eqb a b = true) by (apply all_equal; rewrite O; intros o []). congruence. }
  change (elem (map f (firstn 5 (o :: r))) 0) with (@Ok (op * list A * list A) (f o)). cbn [rbind]. eexists. split; [reflexivity|]. split; [split; discriminate|].
  intros l more E. assert (E1 : l = firstn 4 (map f (firstn 5 (o :: r)))) by congruence. assert (E2 : more = (4 <? length (map f (firstn 5 (o :: r))))%nat) by congruence. clear E.
  assert (E3 : l = map f (firstn 4 (o :: r))) by (rewrite E1, firstn_map, firstn_firstn; reflexivity). split; [rewrite E3; discriminate|]. split; [|split].
  - rewrite E3, map_map. cbn [fst]. unfold f. cbn [fst]. apply map_id.
  - rewrite E2, map_length, firstn_length. lia.
  - intros p x y I. rewrite E3 in I. apply in_map_iff in I as (q & Q & _). unfold f in Q. congruence.
Qed.
