(** A failed comparison of grains has a part to blame. *)
From Coq Require Import String Lia.
From Verif Require Import Base BaseProofs PyValue GrainObj JsonProofs Compare Render RenderSpec RenderProofs.
Local Open Scope list_scope.

(** A comparison with parts goes by them. *)
Inductive settled : cres -> Prop := st r : (r_children r <> [] -> r_equal r = all_agree (r_children r)) -> Forall settled (r_children r) -> settled r.
Lemma leaf_settled i a k o e : settled (CR i a k o e []).
Proof. constructor; [intros H; destruct H; reflexivity|constructor]. Qed.
Lemma parts_settled i a k o l : Forall settled l -> settled (CR i a k o (all_agree l) l).
Proof. intros H. constructor; [reflexivity|exact H]. Qed.
Lemma only_settled {A} id opts : forall (l : list A) n, Forall settled (only id opts n l).
Proof. induction l as [|x l IH]; intros n; cbn [only]; constructor; [apply leaf_settled|apply IH]. Qed.
Lemma elements_settled {A} id opts (cmp : str -> ckey -> A -> A -> res cres) : (forall i k x y c, cmp i k x y = Ok c -> settled c) ->
  forall a b n l, elements id opts cmp n a b = Ok l -> Forall settled l.
Proof.
  intros H. induction a as [|x a IH]; intros [|y b] n l E; cbn [elements] in E; try (apply Ok_eq in E; subst l; try apply (only_settled id opts (_ :: _)); constructor).
  apply rbind_ok in E as (c & Hc & E). apply rbind_ok in E as (r & Hr & E). apply Ok_eq in E. subst l. constructor; [exact (H _ _ _ _ _ Hc)|exact (IH _ _ _ Hr)].
Qed.
Lemma ordered_settled {A} (cmp : str -> ckey -> A -> A -> res cres) id opts at_ a b r : (forall i k x y c, cmp i k x y = Ok c -> settled c) ->
  ordered cmp id opts at_ a b = Ok r -> settled r.
Proof.
  intros H E. unfold ordered in E. apply rbind_ok in E as (l & Hl & E). apply Ok_eq in E. subst r. apply parts_settled. constructor; [apply leaf_settled|].
  exact (elements_settled id opts cmp H a b 0 l Hl).
Qed.
Lemma mapping_settled opts id k a b r : mapping opts id k a b = Ok r -> settled r.
Proof.
  unfold mapping. intros E. apply rbind_ok in E as (u & _ & E). apply Ok_eq in E. subst r. apply parts_settled.
  apply Forall_forall. intros c Hc. rewrite !in_app_iff, !in_flat_map in Hc. destruct Hc as [(p & _ & Hc)|[(p & _ & Hc)|(p & _ & Hc)]].
  - unfold both in Hc. destruct (dget (fst p) a); [|destruct Hc]. destruct (dget (fst p) b); [|destruct Hc]. destruct Hc as [<-|[]]. apply leaf_settled.
  - unfold missing in Hc. destruct (dget (fst p) b); [destruct Hc|]. destruct Hc as [<-|[]]. apply leaf_settled.
  - unfold missing in Hc. destruct (dget (fst p) a); [destruct Hc|]. destruct Hc as [<-|[]]. apply leaf_settled.
Qed.
Lemma equalities_settled g opts : forall names a b l, equalities g opts names a b = Ok l -> Forall settled l.
Proof.
  induction names as [|n names IH]; intros a b l E; cbn [equalities] in E; [apply Ok_eq in E; subst l; constructor|].
  apply rbind_ok in E as (x & _ & E). apply rbind_ok in E as (y & _ & E). apply rbind_ok in E as (r & Hr & E). apply Ok_eq in E. subst l. constructor; [apply leaf_settled|exact (IH _ _ _ Hr)].
Qed.
Lemma instants_settled opts : forall names a b l, instants opts names a b = Ok l -> Forall settled l.
Proof.
  induction names as [|n names IH]; intros a b l E; cbn [instants] in E; [apply Ok_eq in E; subst l; constructor|].
  apply rbind_ok in E as (x & _ & E). apply rbind_ok in E as (y & _ & E). apply rbind_ok in E as (r & Hr & E). apply Ok_eq in E. subst l. constructor; [apply leaf_settled|exact (IH _ _ _ Hr)].
Qed.
Lemma data_settled psnr w c opts a b r : data_child psnr w c opts a b = Ok r -> settled r.
Proof.
  unfold data_child. destruct (w && _).
  - unfold psnr_result. destruct (excluded_by opts data_path); intros E; [apply Ok_eq in E; subst r; apply leaf_settled|].
    apply rbind_ok in E as (p & _ & E). apply Ok_eq in E. subst r. apply leaf_settled.
  - intros E. apply rbind_ok in E as (x & _ & E). apply rbind_ok in E as (y & _ & E). unfold data_equality in E.
    apply rbind_ok in E as (u & _ & E). apply rbind_ok in E as (v & _ & E). apply Ok_eq in E. subst r. apply leaf_settled.
Qed.
Lemma format_settled psnr w f name opts a b o' r : format_then_data psnr w f name opts a b = Ok (o', r) -> settled r.
Proof.
  unfold format_then_data. intros E. apply rbind_ok in E as (x & _ & E). apply rbind_ok in E as (y & _ & E). destruct (x =? y).
  - apply rbind_ok in E as (c & Hc & E). apply Ok_eq in E. assert (c = r) by congruence. subst c. exact (data_settled _ _ _ _ _ _ _ Hc).
  - apply Ok_eq in E. apply pair_equal_spec in E as [_ <-]. apply leaf_settled.
Qed.
Lemma length_settled l : Forall settled l -> Forall settled (map exclude_length l).
Proof.
  intros H. apply Forall_map. eapply Forall_impl; [|exact H]. intros [i a k o e c] S. unfold exclude_length. destruct (zlist_eqb i _); [|exact S].
  inversion S as [r A B]; subst r. constructor; [exact A|exact B].
Qed.
Lemma children_settled psnr opts a b o' l : grain_children psnr opts a b = Ok (o', l) -> Forall settled l.
Proof.
  unfold grain_children. set (O := if has_include opts then opts else _). clearbody O. intros E.
  apply rbind_ok in E as (basic & Hb & E). apply equalities_settled in Hb. apply rbind_ok in E as (times & Ht & E). apply instants_settled in Ht.
  apply rbind_ok in E as (la & _ & E). apply rbind_ok in E as (lb & _ & E). apply rbind_ok in E as (tl & Hl & E).
  apply ordered_settled in Hl; [|intros i k x y c; apply mapping_settled].
  assert (C : Forall settled (basic ++ times ++ [tl])) by (apply Forall_app; split; [exact Hb|apply Forall_app; split; [exact Ht|constructor; [exact Hl|constructor]]]).
  revert C E. generalize (basic ++ times ++ [tl]). intros common C E.
  apply rbind_ok in E as (ta & _ & E). apply rbind_ok in E as (tb & _ & E).
  destruct (negb (py_eq ta tb)); [apply Ok_eq in E; apply pair_equal_spec in E as [_ <-]; apply Forall_app; split; [exact C|constructor; [apply leaf_settled|constructor]]|].
  destruct (type_is ta $"event").
  { apply rbind_ok in E as (m & Hm & E). apply equalities_settled in Hm. apply rbind_ok in E as (ea & _ & E). apply rbind_ok in E as (eb & _ & E). apply rbind_ok in E as (e & He & E).
    apply ordered_settled in He; [|intros i k x y c; apply mapping_settled]. apply Ok_eq in E. apply pair_equal_spec in E as [_ <-].
    apply Forall_app; split; [destruct (existsb _ _); [apply length_settled|]; exact C|]. apply Forall_app; split; [exact Hm|constructor; [exact He|constructor]]. }
  assert (P : forall names w f name g, rbind (equalities g O names a b) (fun m => rbind (format_then_data psnr w f name O a b) (fun '(o2, d) => Ok (o2, common ++ m ++ [d]))) = Ok (o', l) -> Forall settled l).
  { intros names w f name g X. apply rbind_ok in X as (m & Hm & X). apply equalities_settled in Hm. apply rbind_ok in X as ([o2 d] & Hd & X). apply format_settled in Hd.
    apply Ok_eq in X. apply pair_equal_spec in X as [_ <-]. apply Forall_app; split; [exact C|]. apply Forall_app; split; [exact Hm|constructor; [exact Hd|constructor]]. }
  destruct (type_is ta $"audio"); [exact (P _ _ _ _ _ E)|]. destruct (type_is ta $"coded_audio"); [exact (P _ _ _ _ _ E)|]. destruct (type_is ta $"video"); [exact (P _ _ _ _ _ E)|].
  destruct (type_is ta $"coded_video").
  { apply rbind_ok in E as (m & Hm & E). apply equalities_settled in Hm. apply rbind_ok in E as (oa & _ & E). apply rbind_ok in E as (ob & _ & E). apply rbind_ok in E as (u & Hu & E).
    apply ordered_settled in Hu; [|intros i k x y c X; apply Ok_eq in X; subst c; apply leaf_settled].
    apply rbind_ok in E as ([o2 d] & Hd & E). apply format_settled in Hd. apply Ok_eq in E. apply pair_equal_spec in E as [_ <-].
    apply Forall_app; split; [exact C|]. apply Forall_app; split; [exact Hm|]. apply Forall_app; split; [constructor; [exact Hu|constructor]|constructor; [exact Hd|constructor]]. }
  apply rbind_ok in E as (d & Hd & E). apply data_settled in Hd. apply Ok_eq in E. apply pair_equal_spec in E as [_ <-]. apply Forall_app; split; [exact C|constructor; [exact Hd|constructor]].
Qed.
Theorem grain_settled psnr opts a b r : compare_grain psnr opts a b = Ok r -> settled r /\ r_equal r = all_agree (r_children r).
Proof.
  unfold compare_grain, compare_with_key. intros E. apply rbind_ok in E as ([o' l] & Hl & E). apply Ok_eq in E. subst r.
  split; [apply parts_settled; exact (children_settled _ _ _ _ _ _ Hl)|reflexivity].
Qed.
(** Down to a part without parts. *)
Lemma someone_to_blame : forall r, settled r -> r_equal r = false -> r_children r <> [] -> exists d, blamed r d /\ r_children d = [] /\ r_equal d = false.
Proof.
  apply (cres_deep (fun r => settled r -> r_equal r = false -> r_children r <> [] -> exists d, blamed r d /\ r_children d = [] /\ r_equal d = false)).
  intros i a k o e l IH S E N. set (r := CR i a k o e l) in *. inversion S as [r' A B]; subst r'. rewrite (A N) in E. cbn [r_children r] in *.
  assert (X : exists c, In c l /\ r_equal c = false /\ excluded c = false).
  { clear -E. induction l as [|c l IHl]; [discriminate E|]. unfold all_agree in E. cbn [forallb] in E. apply andb_false_iff in E as [E|E].
    - apply orb_false_iff in E as [E1 E2]. exists c. split; [left; reflexivity|auto].
    - destruct (IHl E) as (c' & Hc & Q). exists c'. split; [right; exact Hc|exact Q]. }
  destruct X as (c & Hc & E1 & E2). destruct (r_children c) as [|x xs] eqn:K.
  - exists c. split; [exact (bl_child r c Hc E1 E2)|auto].
  - rewrite Forall_forall in IH, B. destruct (IH c Hc (B c Hc) E1) as (d & D1 & D2); [rewrite K; discriminate|]. exists d. split; [exact (bl_deeper r c d Hc E1 E2 D1)|exact D2].
Qed.
Lemma leaf_msg own d : r_children d = [] -> msg own d = own d.
Proof. intros H. apply msg_plain. rewrite H. intros c []. Qed.
Theorem grain_blames psnr opts a b r own : compare_grain psnr opts a b = Ok r -> r_equal r = false ->
  exists d, blamed r d /\ r_children d = [] /\ r_equal d = false /\ within ($"(" ++ own d ++ $")") (msg own r).
Proof.
  intros H E. destruct (grain_settled psnr opts a b r H) as [S A]. destruct (someone_to_blame r S E) as (d & D1 & D2 & D3).
  { intros N. rewrite A, N in E. discriminate E. }
  exists d. split; [exact D1|]. split; [exact D2|]. split; [exact D3|]. pose proof (msg_blames own r d D1) as W. rewrite (leaf_msg own d D2) in W. exact W.
Qed.
(** And without one it does not fail. *)
Theorem grain_blameless psnr opts a b r : compare_grain psnr opts a b = Ok r -> (r_equal r = false <-> exists d, blamed r d).
Proof.
  intros H. destruct (grain_settled psnr opts a b r H) as [S A]. split.
  - intros E. destruct (someone_to_blame r S E) as (d & D1 & _); [intros N; rewrite A, N in E; discriminate E|]. exists d; exact D1.
  - intros [d D]. rewrite A. assert (X : exists c, In c (r_children r) /\ r_equal c = false /\ excluded c = false) by (destruct D as [r c I E X|r c d I E X _]; exists c; auto).
    destruct X as (c & I & E & X). destruct (all_agree (r_children r)) eqn:Q; [|reflexivity]. unfold all_agree in Q. rewrite forallb_forall in Q. specialize (Q c I). rewrite E, X in Q. discriminate Q.
Qed.
