From Coq Require Import String Lia ZifyBool ZifyNat.
From Verif Require Import Base BaseProofs PyValue PyValueProofs Json JsonProofs PyList ListSpec CogEnums GrainObj Difflib DifflibProofs Compare CompareSpec CompareProofs CompareTree CompareMain
  CompareTotal CompareSym CompareLaws BuildSpec GrainSet GrainSetSpec GrainCopy GrainCopySpec GrainCopyApart GrainPair GrainPairSpec GrainPairProofs.
Local Open Scope list_scope.

(** ** What equality is. *)
Theorem equal_iff a b : meta_ok a -> meta_ok b -> grain_eq a (OGrain b) = Ok true <-> alike a b.
Proof.
  intros A B. unfold grain_eq, alike. rewrite !tuple_is. unfold pair_of. destruct (get_data a) as [d|e] eqn:E; cbn [rbind].
  - destruct (get_data b) as [d'|e'] eqn:F; cbn [rbind].
    + split.
      * intros H. apply Ok_eq in H. apply tuple_eq_pairs in H as [H <-]. split; [apply py_eq_sym; assumption|]. exists d'. auto.
      * intros [H (x & X & Y)]. apply Ok_eq in X. apply Ok_eq in Y. subst. f_equal. apply tuple_eq_pairs. split; [apply py_eq_sym; assumption|reflexivity].
    + split; [discriminate|]. intros [_ (x & _ & X)]. discriminate X.
  - split; [discriminate|]. intros [_ (x & X & _)]. discriminate X.
Qed.
Theorem equal_total a b : (exists r, grain_eq a (OGrain b) = Ok r) <-> has_payload a /\ has_payload b.
Proof.
  unfold grain_eq, has_payload. rewrite !tuple_is. unfold pair_of. destruct (get_data a) as [d|e]; cbn [rbind].
  - destruct (get_data b) as [d'|e']; cbn [rbind]; [split; eauto|]. split; [intros [r R]; discriminate R|intros [_ [x X]]; discriminate X].
  - split; [intros [r R]; discriminate R|intros [[x X] _]; discriminate X].
Qed.
Theorem different_iff a x r : grain_ne a x = Ok r <-> grain_eq a x = Ok (negb r).
Proof.
  unfold grain_ne. destruct (grain_eq a x) as [b|e]; cbn [rbind]; [|split; discriminate]. split; intros H; apply Ok_eq in H; subst; rewrite ?negb_involutive; reflexivity.
Qed.
Theorem equal_tuple a l : grain_eq a (OTuple l) = Ok true <-> exists d b, l = [IMeta d; IData b] /\ get_data a = Ok b /\ py_eq (PDict (o_meta a)) (PDict d) = true.
Proof.
  unfold grain_eq. rewrite tuple_is. unfold pair_of. destruct (get_data a) as [c|e]; cbn [rbind].
  - split.
    + intros H. apply Ok_eq in H. destruct l as [|[d|d] [|[b|b] [|z l]]]; cbn [tuple_eq item_eq] in H; try discriminate H; try (destruct c; cbn [andb] in H; rewrite ?andb_false_r in H; discriminate H).
      exists d, b. split; [reflexivity|]. apply (proj1 (tuple_eq_pairs (o_meta a) c d b)) in H as [H <-]. auto.
    + intros (d & b & -> & H & K). apply Ok_eq in H. subst c. f_equal. apply tuple_eq_pairs. auto.
  - split; [discriminate|]. intros (d & b & _ & H & _). discriminate H.
Qed.
Theorem equal_else a r : grain_eq a OElse = Ok r -> r = false.
Proof. unfold grain_eq. destruct (as_tuple a); cbn [rbind]; [intros H; apply Ok_eq in H; auto|discriminate]. Qed.

(** ** An equivalence. *)
Theorem equal_refl_grain a : meta_ok a -> has_payload a -> grain_eq a (OGrain a) = Ok true.
Proof. intros M [d H]. apply equal_iff; auto. split; [apply py_eq_refl, M|]. exists d. auto. Qed.
Theorem equal_sym_grain a b : meta_ok a -> meta_ok b -> grain_eq a (OGrain b) = grain_eq b (OGrain a) \/ ~ has_payload a /\ ~ has_payload b.
Proof.
  intros A B.
  destruct (grain_eq a (OGrain b)) as [x|e] eqn:E.
  - left. assert (P : has_payload a /\ has_payload b) by (apply equal_total; eauto). destruct P as [P Q].
    assert (R : exists r, grain_eq b (OGrain a) = Ok r) by (apply equal_total; auto). destruct R as [y Y]. rewrite Y. f_equal.
    assert (K : x = true <-> y = true).
    { split; intros ->.
      - apply (proj1 (equal_iff a b A B)) in E as [H (d & D & D')]. assert (L : grain_eq b (OGrain a) = Ok true) by (apply equal_iff; auto; split; [apply py_eq_sym; assumption|exists d; auto]). congruence.
      - apply (proj1 (equal_iff b a B A)) in Y as [H (d & D & D')]. assert (L : grain_eq a (OGrain b) = Ok true) by (apply equal_iff; auto; split; [apply py_eq_sym; assumption|exists d; auto]). congruence. }
    destruct x, y; try reflexivity; [symmetry; apply K; reflexivity|apply K; reflexivity].
  - unfold grain_eq in *. rewrite !tuple_is in *. unfold pair_of, has_payload in *. destruct (get_data a) as [d|e1] eqn:D; cbn [rbind] in *.
    + destruct (get_data b) as [d'|e2]; cbn [rbind] in *; [discriminate E|]. left. symmetry. exact E.
    + destruct (get_data b) as [d'|e2]; cbn [rbind] in *; [left; symmetry; exact E|]. right. split; intros [x X]; discriminate X.
Qed.
Theorem equal_trans_grain a b c : meta_ok a -> meta_ok b -> meta_ok c -> grain_eq a (OGrain b) = Ok true -> grain_eq b (OGrain c) = Ok true -> grain_eq a (OGrain c) = Ok true.
Proof.
  intros A B C E F. apply (proj1 (equal_iff a b A B)) in E as [E (d & D & D1)]. apply (proj1 (equal_iff b c B C)) in F as [F (d' & D2 & D3)]. apply equal_iff; auto.
  split; [exact (py_eq_trans _ _ _ E F)|]. exists d. split; [exact D|congruence].
Qed.

(** ** Elements. *)
Theorem elements a b i : get_data a = Ok b ->
  (i = 0 \/ i = -2 -> pair_get a i = Ok (IMeta (o_meta a))) /\ (i = 1 \/ i = -1 -> pair_get a i = Ok (IData b)) /\ (i < -2 \/ 1 < i -> pair_get a i = Err EIndex).
Proof.
  intros E. unfold pair_get, pair_of. rewrite E. cbn [rbind]. split; [intros [-> | ->]; reflexivity|]. split; [intros [-> | ->]; reflexivity|].
  intros H. unfold lget, py_idx. change (zlen [IMeta (o_meta a); IData b]) with 2. destruct (i <? 0) eqn:N; destruct (_ && _) eqn:K; try reflexivity; exfalso; lia.
Qed.
Theorem whole a b : get_data a = Ok b -> as_tuple a = Ok [IMeta (o_meta a); IData b] /\ pair_len a = zlen [IMeta (o_meta a); IData b] /\
  forall s, pair_slice a s = lslice [IMeta (o_meta a); IData b] s.
Proof. intros E. rewrite tuple_is. unfold pair_slice, pair_of. rewrite E. repeat split. Qed.

(** ** Nothing tells equal grains apart. *)
Lemma alike_metas a b : meta_ok a -> meta_ok b -> alike a b -> alike_meta a b.
Proof. intros A B [H _]. split; [exact A|]. split; [exact B|exact H]. Qed.
Lemma forall2_impl {A} (R Q : A -> A -> Prop) l m : (forall u v, R u v -> Q u v) -> Forall2 R l m -> Forall2 Q l m.
Proof. intros H F. induction F; constructor; auto. Qed.
Theorem attributes_alike a b : meta_ok a -> meta_ok b -> grain_eq a (OGrain b) = Ok true -> o_class a = o_class b ->
  (forall n, n <> $"length" -> both_read equal_values (getattr a n) (getattr b n)) /\
  both_read (Forall2 equal_dicts) (labels a) (labels b) /\ both_read (Forall2 equal_values) (offsets a) (offsets b) /\ both_read (Forall2 equal_values) (event_entries a) (event_entries b) /\
  (o_wait a = o_wait b \/ get_data a <> Ok None -> getattr a $"length" = getattr b $"length").
Proof.
  intros A B E C. apply (proj1 (equal_iff a b A B)) in E. pose proof (alike_metas a b A B E) as M. split; [intros n N; apply getattr_twins; assumption|].
  split; [apply (both_impl _ _ _ _ (fun l m => forall2_impl _ _ l m (fun u v (H : twin_dicts u v) => proj2 (proj2 H))) (labels_twins a b M))|].
  split; [apply (both_impl _ _ _ _ (fun l m => forall2_impl _ _ l m (fun u v (H : twins u v) => proj2 (proj2 H))) (offsets_twins a b M))|].
  split; [apply (both_impl _ _ _ _ (fun l m => forall2_impl _ _ l m (fun u v (H : twins u v) => proj2 (proj2 H))) (entries_twins a b M))|].
  intros H. destruct E as [_ (d & D & D')]. apply (length_twins a b d D D'). destruct H as [H|H]; [left; exact H|right; congruence].
Qed.
(** Grains of their own type and with equal metadata are of the same class. *)
Theorem class_alike a b : meta_ok a -> meta_ok b -> grain_eq a (OGrain b) = Ok true -> class_for (o_meta a) = Ok (o_class a) -> class_for (o_meta b) = Ok (o_class b) -> o_class a = o_class b.
Proof.
  intros A B E C D. apply (proj1 (equal_iff a b A B)) in E. pose proof (alike_metas a b A B E) as M. unfold class_for in C, D.
  destruct (dget $"grain" (o_meta a)) as [u|] eqn:G; [|rewrite (twins_none _ _ _ M G) in D; congruence]. destruct (twins_get _ _ _ u M G) as (v & V & T). rewrite V in D.
  destruct (twins_dict u v T) as [(d & e & Hd & He & De)|(x & Hx & _)]; [|rewrite Hx in C; discriminate C]. rewrite Hd in C. rewrite He in D. cbn [rbind] in C, D.
  destruct (dget $"grain_type" d) as [t|] eqn:X; [|rewrite (twins_none _ _ _ De X) in D; congruence]. destruct (twins_get _ _ _ t De X) as (t' & X' & Tt). rewrite X' in D.
  assert (Q : forall s, type_is t s = type_is t' s).
  { intros s. unfold type_is. destruct Tt as (_ & _ & Tt). destruct t, t'; try discriminate Tt; try reflexivity. cbn [py_eq] in Tt. apply zlist_eqb_eq in Tt. congruence. }
  rewrite !Q in C. congruence.
Qed.

(** ** Copies. *)
Theorem copy_equals now a b : faithful a -> o_class a <> KEvent -> meta_ok a -> copy_obj now a = Ok b ->
  grain_eq b (OGrain a) = Ok (match o_data a, o_class a with None, KVideo | None, KCodedVideo | None, KAudio | None, KCodedAudio => false | _, _ => true end).
Proof.
  intros F N M H. destruct (copy_same now a F N) as [C _]. rewrite C in H. apply Ok_eq in H. subst b.
  assert (G : forall x : gobj, o_class x <> KEvent -> get_data x = Ok (o_data x)) by (intros x X; unfold get_data; destruct (o_class x); congruence).
  unfold grain_eq. rewrite !tuple_is. unfold pair_of. rewrite (G a N), (G (copied a)) by exact N. cbn [rbind copied o_meta o_data]. cbn [tuple_eq item_eq]. rewrite (py_eq_refl _ M).
  destruct (o_data a) as [x|]; [rewrite zlist_eqb_refl; destruct (o_class a); reflexivity|]. destruct (o_class a); try reflexivity. destruct (N eq_refl).
Qed.
(** ** Stored bytes. *)
Theorem stored_bytes a : o_class a <> KEvent -> (has_data a = true <-> exists x, get_data a = Ok (Some x)) /\ forall x, to_bytes a = Ok x <-> get_data a = Ok (Some x).
Proof.
  intros N. assert (G : get_data a = Ok (o_data a)) by (unfold get_data; destruct (o_class a); congruence). rewrite G. unfold has_data, to_bytes. destruct (o_data a) as [b|].
  - split; [split; eauto|]. intros x. split; intros H; apply Ok_eq in H; congruence.
  - split; [split; [discriminate|intros [x X]; discriminate X]|]. intros x. split; discriminate.
Qed.
