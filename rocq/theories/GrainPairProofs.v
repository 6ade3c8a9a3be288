From Coq Require Import String Lia ZifyBool ZifyNat.
From Verif Require Import Base BaseProofs PyValue PyValueProofs Json JsonProofs PyList ListSpec CogEnums GrainObj Difflib DifflibProofs Compare CompareSpec CompareProofs CompareTree CompareMain
  CompareTotal CompareSym CompareLaws GrainPair GrainPairSpec.
Local Open Scope list_scope.

(** ** Equality of values. *)
Lemma py_eq_trans a : forall b c, py_eq a b = true -> py_eq b c = true -> py_eq a c = true.
Proof.
  induction a as [|b0|z0|n0 e0|s0|u0|u0|t0|t0|l H|d H] using pv_induction; intros v w E F;
    destruct v as [|b1|z1|n1 d1|s1|u1|u1|t1|t1|l1|d1]; try discriminate E;
    destruct w as [|b2|z2|n2 d2|s2|u2|u2|t2|t2|l2|d2]; try discriminate F; cbn [py_eq as_q] in *; try reflexivity;
    try (apply Z.eqb_eq in E; subst; exact F); try (apply zlist_eqb_eq in E; subst; exact F);
    try (rewrite andb_true_iff, !Z.eqb_eq in *; destruct E as [E1 E2], F as [F1 F2]; split; congruence).
  - change (list_eq l l1 = true) in E. change (list_eq l1 l2 = true) in F. change (list_eq l l2 = true). apply list_eq_forall in E. apply list_eq_forall in F. apply list_eq_forall.
    revert l2 F. induction E as [|x y l l1 E1 E IH]; intros l2 F; inversion F; subst; [constructor|]. inversion H; subst. constructor; eauto.
  - apply andb_true_iff in E as [L E]. apply andb_true_iff in F as [M F]. apply Nat.eqb_eq in L. apply Nat.eqb_eq in M. apply andb_true_iff. split; [apply Nat.eqb_eq; congruence|].
    change (sub_eq d1 d = true) in E. change (sub_eq d2 d1 = true) in F. change (sub_eq d2 d = true). apply sub_eq_forall in E. apply sub_eq_forall in F. apply sub_eq_forall.
    rewrite Forall_forall in *. intros [k v] I. destruct (E _ I) as (w & G & Q). cbn [fst snd] in G, Q. destruct (F (k, w) (dget_in _ _ _ G)) as (x & G' & Q'). cbn [fst snd] in G', Q'.
    exists x. split; [exact G'|]. exact (H _ I _ _ Q Q').
Qed.
(** Equal values with unique keys. *)
Definition twins (u v : pv) : Prop := pv_ok u /\ pv_ok v /\ py_eq u v = true.
Lemma twins_sym u v : twins u v -> twins v u.
Proof. intros (A & B & C). split; [exact B|]. split; [exact A|]. apply py_eq_sym; assumption. Qed.
Lemma twins_get d e k v : twins (PDict d) (PDict e) -> dget k d = Some v -> exists w, dget k e = Some w /\ twins v w.
Proof.
  intros (A & B & E) G. rewrite py_eq_dict in E. apply andb_true_iff in E as [_ E]. apply sub_eq_forall in E. rewrite Forall_forall in E.
  destruct (E (k, v) (dget_in _ _ _ G)) as (w & W & Q). cbn [fst snd] in W, Q. exists w. split; [exact W|]. split; [exact (dict_ok _ _ _ A G)|]. split; [exact (dict_ok _ _ _ B W)|exact Q].
Qed.
Lemma twins_none d e k : twins (PDict d) (PDict e) -> dget k d = None -> dget k e = None.
Proof. intros T G. destruct (dget k e) as [w|] eqn:E; [|reflexivity]. destruct (twins_get e d k w (twins_sym _ _ T) E) as (v & V & _). congruence. Qed.
Lemma both_bind {A B} (R : A -> A -> Prop) (Q : B -> B -> Prop) x y f g : both_read R x y -> (forall u v, R u v -> both_read Q (f u) (g v)) -> both_read Q (rbind x f) (rbind y g).
Proof. intros [(u & v & -> & -> & H)|(e & -> & ->)] K; cbn [rbind]; [apply K, H|right; exists e; auto]. Qed.
Lemma both_impl {A} (R Q : A -> A -> Prop) x y : (forall u v, R u v -> Q u v) -> both_read R x y -> both_read Q x y.
Proof. intros H [(u & v & E & F & K)|K]; [left; exists u, v; auto|right; exact K]. Qed.
Lemma both_ok {A} (R : A -> A -> Prop) u v : R u v -> both_read R (Ok u) (Ok v).
Proof. intros H. left. exists u, v. auto. Qed.
Lemma both_err {A} (R : A -> A -> Prop) e : both_read R (Err e) (Err e).
Proof. right. exists e. auto. Qed.
Lemma twins_item d e k : twins (PDict d) (PDict e) -> both_read twins (ditem k d) (ditem k e).
Proof.
  intros T. unfold ditem. destruct (dget k d) as [v|] eqn:E.
  - destruct (twins_get d e k v T E) as (w & -> & W). apply both_ok, W.
  - rewrite (twins_none d e k T E). apply both_err.
Qed.
(** Equal values are dictionaries, lists or texts together. *)
Lemma twins_sub u v k : twins u v -> both_read twins (sub k u) (sub k v).
Proof.
  intros T. pose proof T as (_ & _ & E). destruct u, v; try discriminate E; cbn [sub]; try apply both_err. apply twins_item, T.
Qed.
Definition twin_dicts (d e : dict) : Prop := twins (PDict d) (PDict e).
Lemma twins_dict u v : twins u v -> both_read twin_dicts (as_dict u) (as_dict v).
Proof. intros T. pose proof T as (_ & _ & E). destruct u, v; try discriminate E; cbn [as_dict]; try apply both_err. apply both_ok, T. Qed.
Lemma twins_list u v : twins u v -> both_read (Forall2 twins) (as_list u) (as_list v).
Proof.
  intros (A & B & E). destruct u as [| | | | | | | | |l|], v as [| | | | | | | | |m|]; try discriminate E; cbn [as_list]; try apply both_err. apply both_ok.
  rewrite py_eq_list in E. apply list_eq_forall in E. inversion A as [| | | | | | | | |? La|]; subst. inversion B as [| | | | | | | | |? Lb|]; subst. clear A B.
  induction E; [constructor|]. inversion La; subst. inversion Lb; subst. constructor; [split; [assumption|]; split; assumption|auto].
Qed.
Lemma both_map {A B} (R : A -> A -> Prop) (Q : B -> B -> Prop) f l m : Forall2 R l m -> (forall u v, R u v -> both_read Q (f u) (f v)) -> both_read (Forall2 Q) (map_res f l) (map_res f m).
Proof.
  intros F H. induction F as [|x y l m E F IH]; cbn [map_res]; [apply both_ok; constructor|]. apply (both_bind Q _ _ _ _ _ (H x y E)). intros u v U.
  apply (both_bind _ _ _ _ _ _ IH). intros r s W. apply both_ok. constructor; assumption.
Qed.

(** ** Attributes. *)
Definition alike_meta (a b : gobj) : Prop := twins (PDict (o_meta a)) (PDict (o_meta b)).
Lemma field_twins a b k : alike_meta a b -> both_read twins (field k a) (field k b).
Proof. intros M. apply (both_bind _ _ _ _ _ _ (twins_item _ _ $"grain" M)). intros u v. apply twins_sub. Qed.
Lemma section_twins a b s k : alike_meta a b -> both_read twins (in_section s k a) (in_section s k b).
Proof. intros M. apply (both_bind _ _ _ _ _ _ (field_twins a b s M)). intros u v. apply twins_sub. Qed.
Lemma twins_as_q u v : twins u v -> as_q u = as_q v.
Proof.
  intros (_ & _ & E). destruct u, v; try discriminate E; try reflexivity; cbn [py_eq as_q] in *; apply andb_true_iff in E as [E F]; apply Z.eqb_eq in E; apply Z.eqb_eq in F; congruence.
Qed.
Lemma equal_refl v : good v -> equal_values v v.
Proof. exact (good_refl v). Qed.
Lemma both_same (x : res pv) : (forall v, x = Ok v -> good v) -> both_read equal_values x x.
Proof. intros G. destruct x as [v|e]; [apply both_ok, equal_refl, G; reflexivity|apply both_err]. Qed.
Lemma uuid_twins u v : twins u v -> both_read equal_values (to_uuid u) (to_uuid v).
Proof.
  intros (_ & _ & E). destruct u, v; try discriminate E; cbn [to_uuid is_text]; try apply both_err. apply both_ok. exact E.
Qed.
Lemma time_twins u v : twins u v -> both_read equal_values (to_time u) (to_time v).
Proof.
  intros (_ & _ & E). destruct u, v; try discriminate E; cbn [to_time is_text]; try apply both_err. apply both_ok. exact E.
Qed.
Lemma frac_twins u v : twins u v -> both_read equal_values (to_frac u) (to_frac v).
Proof.
  intros T. unfold to_frac. apply (both_bind _ _ _ _ _ _ (twins_sub u v $"numerator" T)). intros n m N. apply (both_bind _ _ _ _ _ _ (twins_sub u v $"denominator" T)). intros d e D.
  unfold mk_frac. rewrite (twins_as_q n m N), (twins_as_q d e D). destruct (as_q m) as [[x y]|]; [|apply both_err]. destruct (as_q e) as [[z w]|]; [|apply both_err].
  apply both_same. unfold frac. destruct (y * z =? 0); [discriminate|]. intros r R. apply Ok_eq in R. right. eexists; eexists; symmetry; exact R.
Qed.
Lemma enum_twins a b s k l : alike_meta a b -> both_read equal_values (enum_attr s k l a) (enum_attr s k l b).
Proof.
  intros M. apply (both_bind _ _ _ _ _ _ (section_twins a b s k M)). intros u v T. unfold to_member. rewrite (twins_as_q u v T). apply both_same.
  intros r R. destruct (as_q v) as [[z [|[p|p|]|p]]|]; try discriminate R. apply rbind_ok in R as (y & _ & R). apply Ok_eq in R. subst r. left. constructor.
Qed.
Lemma maybe_twins a b s k : alike_meta a b -> both_read equal_values (maybe s k a) (maybe s k b).
Proof.
  intros M. apply (both_bind _ _ _ _ _ _ (field_twins a b s M)). intros u v T. apply (both_bind _ _ _ _ _ _ (twins_dict u v T)). intros d e D. apply both_ok.
  destruct (dget k d) as [x|] eqn:E; [destruct (twins_get d e k x D E) as (w & -> & W); exact (proj2 (proj2 W))|]. rewrite (twins_none d e k D E). reflexivity.
Qed.
Lemma maybe_frac_twins a b s k : alike_meta a b -> both_read equal_values (maybe_frac s k a) (maybe_frac s k b).
Proof.
  intros M. apply (both_bind _ _ _ _ _ _ (field_twins a b s M)). intros u v T. apply (both_bind _ _ _ _ _ _ (twins_dict u v T)). intros d e D.
  destruct (dget k d) as [x|] eqn:E; [destruct (twins_get d e k x D E) as (w & -> & W); apply frac_twins, W|]. rewrite (twins_none d e k D E). apply both_ok. reflexivity.
Qed.
Lemma twins_values x y : both_read twins x y -> both_read equal_values x y.
Proof. apply both_impl. intros u v T. apply T. Qed.
Lemma getattr_twins a b n : alike_meta a b -> o_class a = o_class b -> n <> $"length" -> both_read equal_values (getattr a n) (getattr b n).
Proof.
  intros M C N. unfold getattr. rewrite <- C. destruct (dget n (class_attrs (o_class a) ++ common_attrs)) as [f|] eqn:E; [|apply both_err].
  apply dget_in in E. apply in_app_or in E as [E|E].
  - destruct (o_class a); cbn [class_attrs In] in E;
      repeat match goal with E : _ \/ _ |- _ => destruct E as [E|E] end; try (destruct E; fail);
      (assert (F : f = snd (n, f)) by reflexivity; rewrite <- E in F; cbn [snd] in F; rewrite F; clear E F);
      first [apply enum_twins; exact M | apply twins_values, section_twins; exact M | apply maybe_frac_twins; exact M | apply maybe_twins; exact M].
  - cbn [common_attrs In] in E. repeat match goal with E : _ \/ _ |- _ => destruct E as [E|E] end; try (destruct E; fail);
      (assert (F : f = snd (n, f)) by reflexivity; assert (K : n = fst (n, f)) by reflexivity; rewrite <- E in F, K; cbn [fst snd] in F, K; rewrite F; clear E F).
    + apply twins_values, field_twins, M.
    + apply (both_bind _ _ _ _ _ _ (field_twins a b _ M)); exact uuid_twins.
    + apply (both_bind _ _ _ _ _ _ (field_twins a b _ M)); exact uuid_twins.
    + apply (both_bind _ _ _ _ _ _ (field_twins a b _ M)); exact uuid_twins.
    + apply (both_bind _ _ _ _ _ _ (field_twins a b _ M)); exact time_twins.
    + apply (both_bind _ _ _ _ _ _ (field_twins a b _ M)); exact time_twins.
    + apply (both_bind _ _ _ _ _ _ (field_twins a b _ M)); exact time_twins.
    + apply (both_bind _ _ _ _ _ _ (field_twins a b _ M)); exact frac_twins.
    + apply (both_bind _ _ _ _ _ _ (field_twins a b _ M)); exact frac_twins.
    + destruct (N K).
Qed.
Lemma length_twins a b d : get_data a = Ok d -> get_data b = Ok d -> o_wait a = o_wait b \/ d <> None -> getattr a $"length" = getattr b $"length".
Proof.
  intros A B H.
  assert (G : forall o, getattr o $"length" = get_length o) by (intros o; unfold getattr; destruct (o_class o); reflexivity).
  rewrite !G. unfold get_length. rewrite A, B. cbn [rbind]. destruct d as [x|]; [reflexivity|]. destruct H as [->|H]; [reflexivity|destruct H; reflexivity].
Qed.
(** ** Lists. *)
Lemma dset_dget {A} k k' (v : A) d : dget k (dset k' v d) = if zlist_eqb k k' then Some v else dget k d.
Proof. destruct (zlist_eqb k k') eqn:E; [apply zlist_eqb_eq in E; subst; apply dget_set_same|apply dget_set_other, zlist_eqb_neq, E]. Qed.
Lemma dset_length_new {A} k (v : A) d : dget k d = None -> List.length (dset k v d) = S (List.length d).
Proof. intros E. rewrite dset_fresh by (apply dget_none; exact E). rewrite app_length. cbn [List.length]. lia. Qed.
Lemma dset_length_old {A} k (v w : A) d : dget k d = Some w -> List.length (dset k v d) = List.length d.
Proof. induction d as [|[k2 x] d IH]; cbn [dget dset]; [discriminate|]. destruct (zlist_eqb k k2); [reflexivity|]. intros E. cbn [List.length]. rewrite (IH E). reflexivity. Qed.
Lemma twin_intro d e : pv_ok (PDict d) -> pv_ok (PDict e) -> List.length d = List.length e -> (forall k v, dget k d = Some v -> exists w, dget k e = Some w /\ py_eq v w = true) -> twin_dicts d e.
Proof.
  intros A B L H. split; [exact A|]. split; [exact B|]. rewrite py_eq_dict. apply andb_true_iff. split; [apply Nat.eqb_eq, L|]. apply sub_eq_forall, Forall_forall.
  intros [k v] I. cbn [fst snd]. apply H. inversion A as [| | | | | | | | | |? N _]; subst. apply in_dget; assumption.
Qed.
Lemma twin_length d e : twin_dicts d e -> List.length d = List.length e.
Proof. intros (_ & _ & E). rewrite py_eq_dict in E. apply andb_true_iff in E as [E _]. apply Nat.eqb_eq, E. Qed.
Lemma twin_set d e k v w : twin_dicts d e -> twins v w -> twin_dicts (dset k v d) (dset k w e).
Proof.
  intros T V. pose proof T as (A & B & _). apply twin_intro; try (apply dset_good; [apply V|assumption]).
  - destruct (dget k d) as [x|] eqn:E.
    + destruct (twins_get d e k x T E) as (y & Y & _). rewrite (dset_length_old k v x d E), (dset_length_old k w y e Y). apply twin_length, T.
    + rewrite (dset_length_new k v d E), (dset_length_new k w e (twins_none d e k T E)), (twin_length d e T). reflexivity.
  - intros k' x. rewrite !dset_dget. destruct (zlist_eqb k' k); [intros E; assert (x = v) by congruence; subst x; exists w; split; [reflexivity|apply V]|].
    intros E. destruct (twins_get d e k' x T E) as (y & Y & Q). exists y. split; [exact Y|apply Q].
Qed.
Lemma self_twins v : pv_ok v -> twins v v.
Proof. intros H. split; [exact H|]. split; [exact H|]. apply py_eq_refl, H. Qed.
Lemma twin_default d e k v : twin_dicts d e -> pv_ok v -> twin_dicts (ddefault k v d) (ddefault k v e).
Proof.
  intros T V. unfold ddefault, dhas. destruct (dget k d) as [x|] eqn:E.
  - destruct (twins_get d e k x T E) as (y & -> & _). exact T.
  - rewrite (twins_none d e k T E). apply twin_set; [exact T|apply self_twins, V].
Qed.
Lemma label_twins d e : twin_dicts d e -> both_read twin_dicts (fill_label d) (fill_label e).
Proof.
  intros T. unfold fill_label.
  assert (T' : twin_dicts (ddefault $"timelabel" (PDict []) (ddefault $"tag" (PStr []) d)) (ddefault $"timelabel" (PDict []) (ddefault $"tag" (PStr []) e))).
  { apply twin_default; [|constructor; constructor]. apply twin_default; [exact T|constructor]. }
  unfold with_key. apply (both_bind _ _ _ _ _ _ (twins_item _ _ _ T')). intros u v U. apply (both_bind _ _ _ _ _ _ (twins_dict u v U)). intros x y X. cbn [rbind]. apply both_ok.
  apply twin_set; [exact T'|]. repeat (apply twin_default; [|constructor]). exact X.
Qed.
Lemma labels_twins a b : alike_meta a b -> both_read (Forall2 twin_dicts) (labels a) (labels b).
Proof.
  intros M. unfold labels. apply (both_bind _ _ _ _ _ _ (twins_item _ _ $"grain" M)). intros u v U. apply (both_bind _ _ _ _ _ _ (twins_dict u v U)). intros d e D.
  destruct (dget $"timelabels" d) as [x|] eqn:E; [|rewrite (twins_none d e _ D E); apply both_ok; constructor]. destruct (twins_get d e _ x D E) as (y & -> & Y).
  apply (both_bind _ _ _ _ _ _ (twins_list x y Y)). intros l m L. apply (both_map _ _ _ _ _ L). intros p q P. apply (both_bind _ _ _ _ _ _ (twins_dict p q P)). exact label_twins.
Qed.
Lemma offsets_twins a b : alike_meta a b -> both_read (Forall2 twins) (offsets a) (offsets b).
Proof.
  intros M. unfold offsets. apply (both_bind _ _ _ _ _ _ (field_twins a b _ M)). intros u v U. apply (both_bind _ _ _ _ _ _ (twins_dict u v U)). intros d e D.
  destruct (dget $"unit_offsets" d) as [x|] eqn:E; [|rewrite (twins_none d e _ D E); apply both_ok; constructor]. destruct (twins_get d e _ x D E) as (y & -> & Y). apply twins_list, Y.
Qed.
Lemma entries_twins a b : alike_meta a b -> both_read (Forall2 twins) (event_entries a) (event_entries b).
Proof. intros M. apply (both_bind _ _ _ _ _ _ (section_twins a b _ _ M)). exact twins_list. Qed.

(** ** Pairs. *)
(** Reading the payload never raises IndexError, so iteration stops where it should. *)
Definition not_index {A} (r : res A) : Prop := r <> Err EIndex.
Lemma not_index_bind {A B} (x : res A) (f : A -> res B) : not_index x -> (forall u, x = Ok u -> not_index (f u)) -> not_index (rbind x f).
Proof. unfold not_index. destruct x as [u|e]; cbn [rbind]; intros H K; [apply K; reflexivity|intros E; apply H; congruence]. Qed.
Lemma not_index_ok {A} (u : A) : not_index (Ok u).
Proof. discriminate. Qed.
Lemma not_index_sub k v : not_index (sub k v).
Proof. unfold not_index. destruct v; cbn [sub]; try discriminate. unfold ditem. destruct (dget k d); discriminate. Qed.
Lemma not_index_section s k o : not_index (in_section s k o).
Proof.
  apply not_index_bind; [apply not_index_bind|]; try (intros; apply not_index_sub). unfold not_index, ditem. destruct (dget $"grain" (o_meta o)); discriminate.
Qed.
Definition dumps_items := fix go (first : bool) l := match l with
  | [] => Ok [] | x :: l => rbind (dumps x) (fun t => rbind (go false l) (fun r => Ok ((if first then [] else [44; 32]) ++ t ++ r))) end.
Definition dumps_fields := fix go (first : bool) (d : dict) := match d with
  | [] => Ok []
  | (k, x) :: d => rbind (dumps x) (fun t => rbind (go false d) (fun r => Ok ((if first then [] else [44; 32]) ++ str_text k ++ [58; 32] ++ t ++ r))) end.
Lemma not_index_dumps v : not_index (dumps v).
Proof.
  induction v as [|b0|z0|n0 e0|s0|u0|u0|t0|t0|l H|d H] using pv_induction; try discriminate.
  - destruct b0; discriminate.
  - change (not_index (rbind (dumps_items true l) (fun t => Ok (91 :: t ++ [93])))). apply not_index_bind; [|intros; discriminate].
    generalize true. induction H as [|x l X H IH]; intros b; cbn [dumps_items]; [discriminate|]. apply not_index_bind; [exact X|]. intros t _. apply not_index_bind; [apply IH|intros; discriminate].
  - change (not_index (rbind (dumps_fields true d) (fun t => Ok (123 :: t ++ [125])))). apply not_index_bind; [|intros; discriminate].
    generalize true. induction H as [|[k x] d X H IH]; intros b; cbn [dumps_fields]; [discriminate|]. apply not_index_bind; [exact X|]. intros t _. apply not_index_bind; [apply IH|intros; discriminate].
Qed.
Lemma not_index_data o : not_index (get_data o).
Proof.
  unfold get_data. destruct (o_class o); try discriminate. apply not_index_bind; [|intros; discriminate]. unfold event_json.
  apply not_index_bind; [apply not_index_section|]. intros t _. apply not_index_bind; [apply not_index_section|]. intros tp _.
  apply not_index_bind; [apply not_index_bind; [apply not_index_section|]; intros v _; destruct v; discriminate|]. intros l _.
  apply not_index_bind; [|intros u _; apply not_index_bind; [apply not_index_dumps|intros; discriminate]].
  induction l as [|x l IH]; cbn [fold_right]; [discriminate|]. apply not_index_bind; [destruct x; discriminate|]. intros; exact IH.
Qed.
Lemma tuple_is o : as_tuple o = pair_of o.
Proof.
  unfold as_tuple, pair_of. cbn [pair_from]. unfold pair_get, pair_of. pose proof (not_index_data o) as N. destruct (get_data o) as [b|e]; cbn [rbind]; [reflexivity|].
  destruct e; try reflexivity. destruct (N eq_refl).
Qed.
Lemma tuple_eq_pairs d b e c : tuple_eq [IMeta d; IData b] [IMeta e; IData c] = true <-> py_eq (PDict d) (PDict e) = true /\ b = c.
Proof.
  cbn [tuple_eq item_eq]. rewrite andb_true_r, andb_true_iff. destruct b as [x|], c as [y|]; rewrite ?zlist_eqb_eq; split; intros [H K]; split; try exact H; try congruence; try discriminate K.
Qed.
