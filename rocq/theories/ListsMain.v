(** The list-like attributes: slices, the inherited operations and histories. *)
From Coq Require Import String Lia ZifyBool.
From Verif Require Import Base BaseProofs PyValue PyValueProofs PySlice PyList ListSpec PyListProofs JsonProofs GrainObj Lists ListsSpec EventProofs EventMain ListsProofs.
Local Open Scope list_scope.
Ltac Zify.zify_post_hook ::= Z.div_mod_to_equations.

(** ** Positions of slices. *)
Lemma zrange_in a b step j : step <> 0 -> In j (zrange a b step) -> (0 < step /\ a <= j < b) \/ (step < 0 /\ b < j <= a).
Proof.
  intros N H. unfold zrange in H. apply in_map_iff in H. destruct H as (k & <- & H). apply in_seq in H. destruct H as [_ H]. cbn [Nat.add] in H. unfold range_len in H.
  destruct (Z.ltb_spec step 0).
  - right. split; [assumption|]. destruct (Z.ltb_spec b a); [|cbn in H; lia].
    assert (0 <= Z.of_nat k <= (a - b - 1) / (- step)) by lia. assert ((- step) * ((a - b - 1) / (- step)) <= a - b - 1) by (apply Z.mul_div_le; lia). nia.
  - left. split; [lia|]. destruct (Z.ltb_spec a b); [|cbn in H; lia].
    assert (0 <= Z.of_nat k <= (b - a - 1) / step) by lia. assert (step * ((b - a - 1) / step) <= b - a - 1) by (apply Z.mul_div_le; lia). nia.
Qed.
Lemma indices_in n s a b step : 0 <= n -> indices n s = Ok (a, b, step) -> step <> 0 /\ (0 < step -> 0 <= a <= n /\ 0 <= b <= n) /\ (step < 0 -> -1 <= a <= n - 1 /\ -1 <= b <= n - 1).
Proof.
  intros N H. unfold indices, clip in H. destruct s as [s1 s2 s3]. cbn [sl_start sl_stop sl_step] in H. set (k := match s3 with Some k => k | None => 1 end) in *.
  destruct (Z.eqb_spec k 0); [discriminate|]. destruct (Z.ltb_spec k 0); apply Ok_eq in H; injection H; intros <- <- <-; (split; [assumption|]); (split; intros; [|]); try lia;
    (split; [destruct s1 as [i|]|destruct s2 as [i|]]); try lia; destruct (Z.ltb_spec i 0); lia.
Qed.
Lemma positions_in n s p : 0 <= n -> slice_positions n s = Ok p -> Forall (fun j => 0 <= j < n) p.
Proof.
  intros N H. unfold slice_positions in H. apply rbind_ok in H. destruct H as (((a & b) & k) & E & H). apply Ok_eq in H. subst p. destruct (indices_in _ _ _ _ _ N E) as (K & P & M).
  apply Forall_forall. intros j J. destruct (zrange_in _ _ _ _ K J) as [[A B]|[A B]]; [specialize (P A)|specialize (M A)]; lia.
Qed.
Definition pick (l : list pv) (p : list Z) : list pv := flat_map (fun j => match zskip j l with x :: _ => [x] | [] => [] end) p.
Lemma sim_each k p l : Forall (fun j => 0 <= j < zlen l) p -> sim k (get_each k p) l (fun l' r => l' = l /\ r = Ok (pick l p)).
Proof.
  induction p as [|j p IH]; intros H; cbn [get_each]; [apply sim_ret; auto|]. inversion H as [|? ? J H2]; subst.
  destruct (split_at l j J) as (a & x & b & E & L). assert (X : at_index l j a x b) by (split; [exact E|left; lia]).
  eapply sim_bind; [apply sim_get| |].
  - intros l' v [-> [(a' & x' & b' & Y & E2)|[Y _]]]; [|destruct (Y _ _ _ X)]. destruct (at_unique _ _ _ _ _ _ _ _ X Y) as (<- & <- & <-). apply Ok_eq in E2. subst v.
    eapply sim_bind; [apply (IH H2)| |intros ? ? [_ ?]; discriminate]. intros l' r [-> E2]. apply Ok_eq in E2. subst r. apply sim_ret. split; [reflexivity|].
    unfold pick. cbn [flat_map]. replace (zskip j l) with (x :: b) by (rewrite E, <- L, zskip_here; reflexivity). reflexivity.
  - intros l' e [-> [(a' & x' & b' & Y & E2)|[Y _]]]; [discriminate|destruct (Y _ _ _ X)].
Qed.
Lemma norm_id k s l : k <> Labels -> Forall2 (fun v w => norm k v = Ok w) s l -> s = l.
Proof. intros K. induction 1 as [|v w s l H _ IH]; [reflexivity|]. rewrite IH. destruct k; [congruence| |]; apply Ok_eq in H; subst; reflexivity. Qed.
Definition op_sim k op l := sim k (do_op k op) l (fun l' r => list_does k op l l' r \/ deviates k op l l' r).
Lemma sim_get_slice k s l : op_sim k (LGetSlice s) l.
Proof.
  unfold op_sim. cbn [do_op]. pose proof (ld_get_slice k s l) as G.
  assert (M : k <> Offsets -> sim k (with_list k (fun l => mbind (lift (slice_positions (zlen l) s)) (fun p => mbind (get_each k p) (fun r => ret (PList r))))) l
                                  (fun l' r => list_does k (LGetSlice s) l l' r \/ deviates k (LGetSlice s) l l' r)).
  { intros _. apply sim_list; [|intros K ->; right; constructor; exact K]. intros s1 F. replace (zlen s1) with (zlen l) by (unfold zlen; rewrite (forall2_length _ _ _ F); reflexivity).
    unfold lslice in G. destruct (slice_positions (zlen l) s) as [p|e] eqn:P; cbn [rbind as_value] in G.
    - eapply sim_bind with (P := fun l' r => l' = l /\ r = Ok p); [apply sim_lift; auto| |intros ? ? [_ ?]; discriminate]. intros l' q [-> E]. apply Ok_eq in E. subst q.
      eapply sim_bind; [apply sim_each; exact (positions_in _ _ _ (zlen_pos l) P)| |intros ? ? [_ ?]; discriminate]. intros l' q [-> E]. apply Ok_eq in E. subst q. apply sim_ret. left. exact G.
    - eapply sim_bind with (P := fun l' r => l' = l /\ r = Err e); [apply sim_lift; auto|intros ? ? [_ ?]; discriminate|]. intros l' e' [-> E]. injection E. intros ->. left. exact G. }
  destruct k; [apply M; discriminate| |apply M; discriminate]. clear M.
  apply sim_list; [|intros K ->; right; constructor; exact K]. intros s1 F. apply norm_id in F; [|discriminate]. subst s1.
  destruct (lslice l s) as [p|e]; cbn [as_value] in G.
  - eapply sim_bind with (P := fun l' r => l' = l /\ r = Ok p); [apply sim_lift; auto| |intros ? ? [_ ?]; discriminate]. intros l' q [-> E]. apply Ok_eq in E. subst q. apply sim_ret. left. exact G.
  - eapply sim_bind with (P := fun l' r => l' = l /\ r = Err e); [apply sim_lift; auto|intros ? ? [_ ?]; discriminate|]. intros l' e' [-> E]. injection E. intros ->. left. exact G.
Qed.
Lemma drop_forall2 {A B} (R : A -> B -> Prop) p s l j : Forall2 R s l -> Forall2 R (drop_at j p s) (drop_at j p l).
Proof. intros F. revert j. induction F as [|x y s l H _ IH]; intros j; cbn [drop_at]; [constructor|]. destruct (existsb (Z.eqb j) p); [apply IH|constructor; [exact H|apply IH]]. Qed.
Lemma sim_del_slice k s l : op_sim k (LDelSlice s) l.
Proof.
  unfold op_sim. cbn [do_op]. eapply sim_weak; [apply sim_del_with|].
  - intros s1 F. unfold lslice_cut. replace (zlen s1) with (zlen l) by (unfold zlen; rewrite (forall2_length _ _ _ F); reflexivity).
    destruct (slice_positions (zlen l) s) as [p|e]; cbn [rbind]; [|reflexivity]. exists (drop_at 0 p l). split; [reflexivity|]. apply drop_forall2. exact F.
  - intros l' r [H|(K & -> & -> & ->)]; [left; constructor; exact H|right; constructor; exact K].
Qed.
(** Writing to consecutive positions. *)
Lemma put_run vs : forall c j x y z, zlen x = c + Z.of_nat j -> List.length y = List.length vs ->
  put_positions (x ++ y ++ z) (map (fun i => c + Z.of_nat i * 1) (seq j (List.length vs))) vs = x ++ vs ++ z.
Proof.
  induction vs as [|v vs IH]; intros c j x y z L E.
  - destruct y; [|discriminate]. reflexivity.
  - destruct y as [|y0 y]; [discriminate|]. cbn [List.length seq map]. unfold put_positions. cbn [combine fold_left fst snd].
    rewrite (lput_at (x ++ (y0 :: y) ++ z) _ x y0 (y ++ z)) by (split; [reflexivity|left; lia]).
    specialize (IH c (S j) (x ++ [v]) y z). rewrite <- !app_assoc in IH. cbn [app] in IH. apply IH; [rewrite zlen_app'; change (zlen [v]) with 1; lia|cbn in E; lia].
Qed.
Lemma put_len vs : forall p l, zlen (put_positions l p vs) = zlen l.
Proof.
  induction vs as [|v vs IH]; intros [|i p] l; try reflexivity. unfold put_positions. cbn [combine fold_left fst snd].
  destruct (index_cases l i) as [(a & x & b & X)|N].
  - rewrite (lput_at _ _ _ _ _ _ X). specialize (IH p (a ++ v :: b)). unfold put_positions in IH. rewrite IH. destruct X as [-> _]. rewrite !zlen_app', !zlen_cons'. reflexivity.
  - rewrite (lput_none _ _ _ N). apply IH.
Qed.
Lemma put_matching l s vs p : slice_positions (zlen l) s = Ok p -> zlen p = zlen vs -> lslice_put l s vs = Ok (put_positions l p vs).
Proof.
  intros H L. unfold slice_positions in H. unfold lslice_put. apply rbind_ok in H. destruct H as (((a & b) & k) & E & H). apply Ok_eq in H. rewrite E. cbn [rbind].
  destruct (indices_in _ _ _ _ _ (zlen_pos l) E) as (K & P & M). destruct (Z.eqb_spec k 1) as [->|N]; [|rewrite H; rewrite L, Z.eqb_refl; reflexivity].
  specialize (P ltac:(lia)). f_equal. subst p.
  assert (R : range_len a b 1 = Z.max 0 (b - a)) by (unfold range_len; change (1 <? 0) with false; destruct (Z.ltb_spec a b); cbv iota; [rewrite Z.div_1_r|]; lia).
  assert (V : List.length vs = Z.to_nat (range_len a b 1)) by (unfold zrange in L; unfold zlen in L; rewrite map_length, seq_length in L; lia).
  destruct (split_between l a) as (x & t & -> & Lx); [lia|]. rewrite zlen_app' in P.
  destruct (split_between t (Z.max 0 (b - a))) as (y & z & -> & Ly); [lia|]. unfold zrange. rewrite <- V.
  rewrite (put_run vs a 0 x y z); [|lia|unfold zlen in Ly; lia]. rewrite <- Lx at 1. rewrite zfirst_here. f_equal. f_equal.
  rewrite app_assoc. replace (Z.max a b) with (zlen (x ++ y)) by (rewrite zlen_app'; lia). apply zskip_here.
Qed.
Lemma sim_set_slice k s vs l : op_sim k (LSetSlice s vs) l.
Proof.
  unfold op_sim. cbn [do_op]. unfold set_slice. apply sim_list; [|intros K ->; right; constructor; exact K]. intros s1 F. destruct k.
  - apply sim_fail. right. constructor.
  - apply norm_id in F; [|discriminate]. subst s1. pose proof (ld_set_slice Offsets s vs l) as G. destruct (lslice_put l s vs) as [l1|e] eqn:P; cbn [outcome] in G.
    + eapply sim_bind with (P := fun l' r => l' = l /\ r = Ok l1); [apply sim_lift; auto| |intros ? ? [_ ?]; discriminate]. intros l' q [-> E]. apply Ok_eq in E. subst q.
      apply sim_put with (ws := l1); [|left; apply G; reflexivity]. clear. induction l1; constructor; auto.
    + eapply sim_bind with (P := fun l' r => l' = l /\ r = Err e); [apply sim_lift; auto|intros ? ? [_ ?]; discriminate|]. intros l' e' [-> E]. injection E. intros ->. left. apply G. reflexivity.
  - apply norm_id in F; [|discriminate]. subst s1. destruct (slice_positions (zlen l) s) as [p|e] eqn:P.
    + eapply sim_bind with (P := fun l' r => l' = l /\ r = Ok p); [apply sim_lift; auto| |intros ? ? [_ ?]; discriminate]. intros l' q [-> E]. apply Ok_eq in E. subst q.
      eapply sim_bind with (P := fun l' r => l' = put_positions l p vs /\ r = Ok PNone); [apply sim_put with (ws := put_positions l p vs); [|auto]| |intros ? ? [_ ?]; discriminate].
      { clear. induction (put_positions l p vs); constructor; auto. }
      intros l' q [-> _]. destruct (Z.eq_dec (zlen p) (zlen vs)) as [E|N].
      * rewrite E, Z.ltb_irrefl. apply sim_ret. left. constructor. rewrite (put_matching _ _ _ _ P E). reflexivity.
      * assert (D : forall r, deviates Comps (LSetSlice s vs) l (put_positions l p vs) r) by (intros r; apply dev_comps with (p := p); auto; apply put_len).
        destruct (zlen vs <? zlen p); [apply sim_fail|apply sim_ret]; right; apply D.
    + eapply sim_bind with (P := fun l' r => l' = l /\ r = Err e); [apply sim_lift; auto|intros ? ? [_ ?]; discriminate|]. intros l' e' [-> E]. injection E. intros ->. left. constructor.
      unfold lslice_put. unfold slice_positions in P. destruct (indices (zlen l) s) as [((a & b) & c)|e1]; cbn [rbind] in *; [discriminate|]. injection P. intros ->. reflexivity.
Qed.

(** ** The inherited operations. *)
Lemma sim_append k v w l : norm k v = Ok w -> sim k (append k v) l (fun l' r => l' = l ++ [w] /\ r = Ok PNone).
Proof.
  intros W. eapply sim_bind; [apply sim_len| |intros ? ? [_ ?]; discriminate]. intros l' n [-> E]. apply Ok_eq in E. subst n. apply sim_insert; [exact W|].
  split; [symmetry; apply app_nil_r|auto].
Qed.
Lemma sim_extend k vs ws : Forall2 (fun v w => norm k v = Ok w) vs ws -> forall l, sim k (extend k vs) l (fun l' r => l' = l ++ ws /\ r = Ok PNone).
Proof.
  induction 1 as [|v w vs ws H _ IH]; intros l; cbn [extend]; [apply sim_ret; rewrite app_nil_r; auto|].
  eapply sim_bind; [apply (sim_append _ _ _ _ H)| |intros ? ? [_ ?]; discriminate]. intros l' a [-> _]. eapply sim_weak; [apply IH|]. cbv beta. intros l' r. rewrite <- app_assoc. auto.
Qed.
Lemma sim_pop k i l : sim k (pop k i) l (fun l' r => (exists a x b, at_index l i a x b /\ l' = a ++ b /\ r = Ok x) \/ (no_index l i /\ l' = l /\ r = Err EIndex)).
Proof.
  unfold pop. eapply sim_bind; [apply sim_get| |].
  - intros l' v [-> [(a & x & b & X & E)|[_ E]]]; [|discriminate]. apply Ok_eq in E. subst v. eapply sim_bind; [apply sim_del| |].
    + intros l' v [(a' & x' & b' & Y & -> & _)|(_ & _ & E)]; [|discriminate]. apply sim_ret. left. destruct (at_unique _ _ _ _ _ _ _ _ X Y) as (<- & <- & <-). exists a, x, b. auto.
    + intros l' e [(a' & x' & b' & Y & -> & E)|(N & _ & _)]; [discriminate|destruct (N _ _ _ X)].
  - intros l' e [-> [(a & x & b & X & E)|[N E]]]; [discriminate|]. right. auto.
Qed.
Lemma how_many_is k o l : shows_list k o l -> how_many k o = List.length l.
Proof.
  intros (d & s & H & N & G & C & F). unfold how_many, raw. rewrite H. cbn [rbind]. rewrite G. apply forall2_length in F. destruct s; cbn [option_map as_list rbind]; exact F.
Qed.
Lemma sim_clear_loop k : forall fuel l, (List.length l < fuel)%nat -> sim k (clear_loop fuel k) l (fun l' r => l' = [] /\ r = Ok PNone).
Proof.
  induction fuel as [|fuel IH]; intros l L; [lia|]. intros o S. cbn [clear_loop]. destruct (sim_pop k (-1) l o S) as (o1 & l1 & r & E & S1 & F & X). rewrite E. clear E.
  destruct X as [(a & x & b & X & -> & ->)|(N & -> & ->)].
  - destruct X as [-> _]. destruct (IH (a ++ b)) with (o := o1) as (o2 & l2 & r2 & E & S2 & F2 & X2); [rewrite app_length in *; cbn [List.length] in L; lia|exact S1|].
    exists o2, l2, r2. split; [exact E|]. split; [exact S2|]. split; [exact (list_same_trans _ _ _ _ _ S1 F F2)|exact X2].
  - exists o1, l, (Ok PNone). split; [reflexivity|]. split; [exact S1|]. split; [exact F|]. split; [|reflexivity]. destruct l as [|y l]; [reflexivity|].
    destruct (exists_last (l := y :: l)) as (a & x & H); [discriminate|]. destruct (N a x []). split; [exact H|right; reflexivity].
Qed.
Lemma sim_clear k l : sim k (clear k) l (fun l' r => l' = [] /\ r = Ok PNone).
Proof. intros o S. unfold clear. rewrite (how_many_is _ _ _ S). exact (sim_clear_loop k _ l (Nat.lt_succ_diag_r _) o S). Qed.
Lemma at_here {A} (a : list A) x b : at_index (a ++ x :: b) (zlen a) a x b.
Proof. split; auto. Qed.
Lemma none_past {A} (l : list A) i : zlen l <= i -> no_index l i.
Proof. intros H a x b [-> E]. rewrite zlen_app', zlen_cons' in H. pose proof (zlen_pos a). pose proof (zlen_pos b). lia. Qed.
Lemma get_here a x b l' r : l' = a ++ x :: b /\ item_of (a ++ x :: b) (zlen a) r -> l' = a ++ x :: b /\ r = Ok x.
Proof. intros [-> [(a' & x' & b' & Y & E)|[N _]]]; [destruct (at_unique _ _ _ _ _ _ _ _ (at_here a x b) Y) as (_ & <- & _); auto|destruct (N _ _ _ (at_here a x b))]. Qed.
Lemma get_past l i l' r : zlen l <= i -> l' = l /\ item_of l i r -> l' = l /\ r = Err EIndex.
Proof. intros H [-> [(a & x & b & X & _)|[_ E]]]; [destruct (none_past _ _ H _ _ _ X)|auto]. Qed.
Lemma sim_iter k : forall fuel a b, (List.length b < fuel)%nat -> sim k (iter_loop fuel k (zlen a)) (a ++ b) (fun l' r => l' = a ++ b /\ r = Ok b).
Proof.
  induction fuel as [|fuel IH]; intros a b L; [lia|]. intros o S. cbn [iter_loop]. destruct (sim_get k (zlen a) _ o S) as (o1 & l1 & r & E & S1 & F & X). rewrite E. clear E.
  destruct b as [|x b].
  - apply get_past in X; [|rewrite app_nil_r; lia]. destruct X as [-> ->]. exists o1, (a ++ []), (Ok []). split; [reflexivity|]. split; [exact S1|]. split; [exact F|auto].
  - apply get_here in X. destruct X as [-> ->]. specialize (IH (a ++ [x]) b). rewrite <- app_assoc, zlen_app' in IH. change (zlen [x]) with 1 in IH. cbn [app] in IH.
    destruct (IH ltac:(cbn [List.length] in L; lia) o1 S1) as (o2 & l2 & r2 & E & S2 & F2 & -> & ->). unfold mbind. rewrite E. eexists o2, _, _. split; [reflexivity|]. split; [exact S2|].
    split; [exact (list_same_trans _ _ _ _ _ S1 F F2)|auto].
Qed.
Lemma sim_items k l : sim k (items k) l (fun l' r => l' = l /\ r = Ok l).
Proof. intros o S. unfold items. rewrite (how_many_is _ _ _ S). exact (sim_iter k _ [] l (Nat.lt_succ_diag_r _) o S). Qed.
Lemma sim_index_loop k v : forall fuel a b, (List.length b < fuel)%nat -> sim k (index_loop fuel k v (zlen a)) (a ++ b)
  (fun l' r => l' = a ++ b /\ ((exists c x d, first_equal v b c x d /\ r = Ok (PInt (zlen a + zlen c))) \/ (none_equal v b /\ r = Err EValue))).
Proof.
  induction fuel as [|fuel IH]; intros a b L; [lia|]. intros o S. cbn [index_loop]. destruct (sim_get k (zlen a) _ o S) as (o1 & l1 & r & E & S1 & F & X). rewrite E. clear E.
  destruct b as [|x b].
  - apply get_past in X; [|rewrite app_nil_r; lia]. destruct X as [-> ->]. eexists o1, _, _. split; [reflexivity|]. split; [exact S1|]. split; [exact F|]. split; [reflexivity|]. right. split; [constructor|reflexivity].
  - apply get_here in X. destruct X as [-> ->]. destruct (py_eq x v) eqn:V.
    + eexists o1, _, _. split; [reflexivity|]. split; [exact S1|]. split; [exact F|]. split; [reflexivity|]. left. exists [], x, b. split; [split; [reflexivity|]; split; [exact V|constructor]|].
      change (zlen (@nil pv)) with 0. rewrite Z.add_0_r. reflexivity.
    + specialize (IH (a ++ [x]) b). rewrite <- app_assoc, zlen_app' in IH. change (zlen [x]) with 1 in IH. cbn [app] in IH.
      destruct (IH ltac:(cbn [List.length] in L; lia) o1 S1) as (o2 & l2 & r2 & E & S2 & F2 & -> & X). exists o2, (a ++ x :: b), r2. split; [exact E|]. split; [exact S2|].
      split; [exact (list_same_trans _ _ _ _ _ S1 F F2)|]. split; [reflexivity|]. destruct X as [(c & y & d & (-> & Y1 & Y2) & ->)|[Y ->]].
      * left. exists (x :: c), y, d. split; [split; [reflexivity|]; split; [exact Y1|constructor; assumption]|]. rewrite zlen_cons'. f_equal. f_equal. lia.
      * right. split; [constructor; assumption|reflexivity].
Qed.
Lemma sim_index k v l : sim k (index k v) l (fun l' r => l' = l /\ ((exists a x b, first_equal v l a x b /\ r = Ok (PInt (zlen a))) \/ (none_equal v l /\ r = Err EValue))).
Proof. intros o S. unfold index. rewrite (how_many_is _ _ _ S). exact (sim_index_loop k v _ [] l (Nat.lt_succ_diag_r _) o S). Qed.
Lemma sim_remove k v l : sim k (remove k v) l (fun l' r => (exists a x b, first_equal v l a x b /\ l' = a ++ b /\ r = Ok PNone) \/ (none_equal v l /\ l' = l /\ r = Err EValue)).
Proof.
  unfold remove. eapply sim_bind; [apply sim_index| |].
  - intros l' i [-> [(a & x & b & X & E)|[_ E]]]; [|discriminate]. apply Ok_eq in E. subst i. eapply sim_weak; [apply sim_del|]. cbv beta.
    assert (Y : at_index l (zlen a) a x b) by (destruct X as [-> _]; apply at_here). intros l' r [(a' & x' & b' & Z & -> & ->)|(N & _ & _)]; [|destruct (N _ _ _ Y)].
    destruct (at_unique _ _ _ _ _ _ _ _ Y Z) as (<- & <- & <-). left. exists a, x, b. auto.
  - intros l' e [-> [(a & x & b & X & E)|[N E]]]; [discriminate|]. right. auto.
Qed.
(** Reversing: the outer parts are done, the middle is not. *)
Lemma sim_got {A} k i (x : pv) a b l (f : pv -> act A) (Q : list pv -> res A -> Prop) : at_index l i a x b -> sim k (f x) l Q -> sim k (mbind (get_item k i) f) l Q.
Proof.
  intros X H. eapply sim_bind; [apply sim_get| |].
  - intros l' v [-> [(a' & x' & b' & Y & E)|[N _]]]; [|destruct (N _ _ _ X)]. destruct (at_unique _ _ _ _ _ _ _ _ X Y) as (_ & <- & _). apply Ok_eq in E. subst v. exact H.
  - intros l' e [-> [(a' & x' & b' & Y & E)|[N _]]]; [discriminate|destruct (N _ _ _ X)].
Qed.
Lemma sim_set_at k i v w a x b l : norm k v = Ok w -> at_index l i a x b -> sim k (set_item k i v) l (fun l' r => l' = a ++ w :: b /\ r = Ok PNone).
Proof.
  intros W X. eapply sim_weak; [apply (sim_set _ _ _ _ _ W)|]. intros l' r [(a' & x' & b' & Y & -> & ->)|(N & _ & _)]; [|destruct (N _ _ _ X)].
  destruct (at_unique _ _ _ _ _ _ _ _ X Y) as (<- & _ & <-). auto.
Qed.
Lemma zlen_rev {A} (l : list A) : zlen (rev l) = zlen l.
Proof. unfold zlen. rewrite rev_length. reflexivity. Qed.
Lemma sim_swaps k n : forall c a m b, List.length a = List.length b -> n = zlen (a ++ m ++ b) -> (List.length m = 2 * c \/ List.length m = 2 * c + 1)%nat ->
  Forall (fun w => norm k w = Ok w) m -> 
  sim k (swaps k n (map (fun i => 0 + Z.of_nat i * 1) (seq (List.length a) c))) (rev b ++ m ++ rev a) (fun l' r => l' = rev (a ++ m ++ b) /\ r = Ok PNone).
Proof.
  induction c as [|c IH]; intros a m b L N M K; cbn [seq map swaps].
  - apply sim_ret. split; [|reflexivity]. rewrite !rev_app_distr, <- app_assoc. f_equal. f_equal. destruct m as [|x [|y m]]; [reflexivity|reflexivity|cbn in M; lia].
  - destruct m as [|x m]; [cbn in M; lia|]. destruct (exists_last (l := m)) as (m1 & y & ->); [destruct m; [cbn in M; lia|discriminate]|].
    inversion K as [|? ? Kx K2]; subst x0 l. apply Forall_app in K2. destruct K2 as [K2 K3]. inversion K3 as [|? ? Ky _]; subst x0 l.
    rewrite !zlen_app', zlen_cons', zlen_app' in N. change (zlen [y]) with 1 in N. assert (L2 : zlen a = zlen b) by (unfold zlen; lia).
    set (i := 0 + Z.of_nat (List.length a) * 1). assert (I : i = zlen a) by (subst i; unfold zlen; lia). clearbody i.
    assert (X1 : at_index (rev b ++ (x :: m1 ++ [y]) ++ rev a) i (rev b) x (m1 ++ y :: rev a)).
    { split; [cbn [app]; rewrite <- app_assoc; reflexivity|]. left. rewrite zlen_rev. lia. }
    assert (X2 : forall x, at_index (rev b ++ (x :: m1 ++ [y]) ++ rev a) (n - i - 1) (rev b ++ x :: m1) y (rev a)).
    { intros z. split; [rewrite <- !app_assoc; cbn [app]; rewrite <- app_assoc; reflexivity|]. left. rewrite zlen_app', zlen_cons', zlen_rev. lia. }
    eapply sim_bind with (P := fun l' r => l' = rev b ++ y :: m1 ++ x :: rev a /\ r = Ok PNone).
    + unfold swap. apply (sim_got k _ y _ _ _ _ _ (X2 x)). apply (sim_got k _ x _ _ _ _ _ X1).
      eapply sim_bind; [apply (sim_set_at _ _ _ _ _ _ _ _ Ky X1)| |intros ? ? [_ ?]; discriminate]. intros l' v [-> _].
      specialize (X2 y). cbn [app] in X2. rewrite <- app_assoc in X2. cbn [app] in X2.
      eapply sim_weak; [apply (sim_set_at _ _ _ _ _ _ _ _ Kx X2)|]. cbv beta. intros l' r [-> ->]. split; [|reflexivity]. rewrite <- app_assoc. reflexivity.
    + intros l' v [-> _]. specialize (IH (a ++ [x]) m1 (y :: b)). rewrite app_length in IH. cbn [List.length rev] in IH.
      replace (List.length a + 1)%nat with (S (List.length a)) in IH by lia.
      replace ((rev b ++ [y]) ++ m1 ++ rev (a ++ [x])) with (rev b ++ y :: m1 ++ x :: rev a) in IH by (rewrite rev_app_distr, <- app_assoc; reflexivity).
      replace ((a ++ [x]) ++ m1 ++ y :: b) with (a ++ (x :: m1 ++ [y]) ++ b) in IH by (rewrite <- !app_assoc; cbn [app]; rewrite <- app_assoc; reflexivity).
      apply IH; [lia| |cbn [List.length] in M; rewrite app_length in M; cbn [List.length] in M; lia|exact K2].
      rewrite !zlen_app', zlen_cons', zlen_app'. change (zlen [y]) with 1. lia.
    + intros ? ? [_ ?]. discriminate.
Qed.
Lemma shown_norm k o l : shows_list k o l -> Forall (fun w => norm k w = Ok w) l.
Proof. intros (d & s & _ & _ & _ & _ & F). induction F as [|v w s' l H _ IH]; constructor; [exact (norm_norm _ _ _ H)|exact IH]. Qed.
Lemma sim_reverse k l : sim k (reverse k) l (fun l' r => l' = rev l /\ r = Ok PNone).
Proof.
  intros o S. pose proof (shown_norm _ _ _ S) as K. revert o S. change (sim k (reverse k) l (fun l' r => l' = rev l /\ r = Ok PNone)).
  unfold reverse. eapply sim_bind; [apply sim_len| |intros ? ? [_ ?]; discriminate]. intros l' n [-> E]. apply Ok_eq in E.
  assert (R : zrange 0 (n / 2) 1 = map (fun i => 0 + Z.of_nat i * 1) (seq (List.length (@nil pv)) (Nat.div2 (List.length l)))).
  { unfold zrange. f_equal. cbn [List.length]. f_equal. unfold range_len. change (1 <? 0) with false. cbv iota. rewrite Nat.div2_div.
    assert (H : Z.of_nat (List.length l / 2) = n / 2) by (rewrite Nat2Z.inj_div; subst n; reflexivity). destruct (Z.ltb_spec 0 (n / 2)); [rewrite Z.div_1_r|]; lia. }
  rewrite R. pose proof (sim_swaps k n (Nat.div2 (List.length l)) [] l []) as G. cbn [rev app] in G. rewrite app_nil_r in G. apply G; auto.
  pose proof (Nat.div2_odd (List.length l)) as D. destruct (Nat.odd (List.length l)); cbn [Nat.b2n] in D; lia.
Qed.
Lemma storable_all k vs : Forall (storable k) vs -> exists ws, Forall2 (fun v w => norm k v = Ok w) vs ws.
Proof. induction 1 as [|v vs [w H] _ [ws IH]]; [exists []; constructor|]. exists (w :: ws). constructor; assumption. Qed.
Lemma op_sims k op l : lop_ok k op -> op_sim k op l.
Proof.
  intros H. destruct op; cbn [lop_ok] in H; try apply sim_get_slice; try apply sim_set_slice; try apply sim_del_slice; unfold op_sim; cbn [do_op].
  - eapply sim_weak; [apply sim_get|]. intros l' r [-> [(a & x & b & X & ->)|[N ->]]]; left; econstructor; eassumption.
  - destruct H as [w W]. eapply sim_weak; [apply (sim_set _ _ _ _ _ W)|]. intros l' r [(a & x & b & X & -> & ->)|(N & -> & ->)]; left; econstructor; eassumption.
  - eapply sim_weak; [apply sim_del|]. intros l' r [(a & x & b & X & -> & ->)|(N & -> & ->)]; left; econstructor; eassumption.
  - destruct H as [w W]. destruct (between_exists l i) as (a & b & X). eapply sim_weak; [apply (sim_insert _ _ _ _ _ _ _ W X)|]. intros l' r [-> ->]. left. econstructor; eassumption.
  - eapply sim_bind; [apply sim_len| |intros ? ? [_ ?]; discriminate]. intros l' n [-> E]. apply Ok_eq in E. subst n. apply sim_ret. left. constructor.
  - destruct H as [w W]. eapply sim_weak; [apply (sim_append _ _ _ _ W)|]. intros l' r [-> ->]. left. constructor. exact W.
  - eapply sim_weak; [apply sim_pop|]. intros l' r [(a & x & b & X & -> & ->)|(N & -> & ->)]; left; econstructor; eassumption.
  - destruct (storable_all _ _ H) as [ws W]. eapply sim_weak; [apply (sim_extend _ _ _ W)|]. intros l' r [-> ->]. left. constructor. exact W.
  - eapply sim_weak; [apply sim_clear|]. intros l' r [-> ->]. left. constructor.
  - eapply sim_weak; [apply sim_reverse|]. intros l' r [-> ->]. left. constructor.
  - eapply sim_bind; [apply sim_items| |intros ? ? [_ ?]; discriminate]. intros l' n [-> E]. apply Ok_eq in E. subst n. apply sim_ret. left. constructor.
  - eapply sim_weak; [apply sim_index|]. intros l' r [-> [(a & x & b & X & ->)|[N ->]]]; left; econstructor; eassumption.
  - eapply sim_weak; [apply sim_remove|]. intros l' r [(a & x & b & X & -> & ->)|(N & -> & ->)]; left; econstructor; eassumption.
  - eapply sim_bind; [apply sim_items| |intros ? ? [_ ?]; discriminate]. intros l' n [-> E]. apply Ok_eq in E. subst n. apply sim_ret. left. constructor.
  - eapply sim_bind; [apply sim_items| |intros ? ? [_ ?]; discriminate]. intros l' n [-> E]. apply Ok_eq in E. subst n. apply sim_ret. left. constructor.
Qed.
(** ** Histories. *)
Theorem list_history k ops : forall o l o' rs, Forall (lop_ok k) ops -> shows_list k o l -> do_ops k ops o = (o', rs) -> exists l', steps k ops l l' rs /\ shows_list k o' l' /\ same_but_list k o o'.
Proof.
  induction ops as [|op ops IH]; intros o l o' rs H S E; cbn [do_ops] in E.
  - injection E. intros <- <-. exists l. split; [constructor|]. split; [exact S|apply list_same_refl].
  - inversion H as [|? ? H1 H2]; subst. destruct (op_sims k op l H1 o S) as (o1 & l1 & r & E1 & S1 & F1 & X1). rewrite E1 in E. destruct (do_ops k ops o1) as [o2 rs2] eqn:E2. injection E. intros <- <-.
    destruct (IH _ _ _ _ H2 S1 E2) as (l2 & X2 & S2 & F2). exists l2. split; [econstructor; eassumption|]. split; [exact S2|]. exact (list_same_trans _ _ _ _ _ S1 F1 F2).
Qed.
Theorem index_history k ops o l o' rs : Forall (lop_ok k) ops -> Forall by_index ops -> shows_list k o l -> do_ops k ops o = (o', rs) -> exists l', list_steps k ops l l' rs /\ shows_list k o' l' /\ same_but_list k o o'.
Proof.
  intros H B S E. destruct (list_history _ _ _ _ _ _ H S E) as (l' & X & S' & F). exists l'. split; [|auto]. clear - B X. induction X as [l|op ops l l1 l2 r rs D X IH]; [constructor|].
  inversion B as [|? ? B1 B2]; subst. apply ls_cons with (l1 := l1); [|exact (IH B2)]. destruct D as [D|D]; [exact D|]. inversion D; subst; destruct B1.
Qed.
