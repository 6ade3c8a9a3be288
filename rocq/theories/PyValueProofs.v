(** Facts about the values of PyValue.v. *)
From Verif Require Import Base BaseProofs PyValue.
From Coq Require Import Lia ZifyBool ZifyNat.

(** Induction over values nested in lists and dictionaries. *)
Fixpoint pv_induction (P : pv -> Prop) (Hn : P PNone) (Hb : forall b, P (PBool b)) (Hi : forall z, P (PInt z))
  (Hf : forall n d, P (PFrac n d)) (Hs : forall s, P (PStr s)) (Hu : forall u, P (PUuid u)) (Hus : forall u, P (PUuidStr u))
  (Ht : forall t, P (PTime t)) (Hts : forall t, P (PTimeStr t)) (Hl : forall l, Forall P l -> P (PList l))
  (Hd : forall d : dict, Forall (fun kv => P (snd kv)) d -> P (PDict d)) (v : pv) {struct v} : P v :=
  let F := pv_induction P Hn Hb Hi Hf Hs Hu Hus Ht Hts Hl Hd in
  match v with
  | PNone => Hn | PBool b => Hb b | PInt z => Hi z | PFrac n d => Hf n d | PStr s => Hs s | PUuid u => Hu u | PUuidStr u => Hus u
  | PTime t => Ht t | PTimeStr t => Hts t
  | PList l => Hl l ((fix go l : Forall P l := match l with [] => Forall_nil P | x :: l => Forall_cons x (F x) (go l) end) l)
  | PDict d => Hd d ((fix go (d : dict) : Forall (fun kv => P (snd kv)) d :=
                        match d with [] => Forall_nil _ | kv :: d => Forall_cons kv (F (snd kv)) (go d) end) d)
  end.

Lemma zlist_eqb_sym a b : zlist_eqb a b = zlist_eqb b a.
Proof. destruct (zlist_eqb a b) eqn:E; symmetry; [apply zlist_eqb_eq in E; subst; apply zlist_eqb_refl|]. apply zlist_eqb_neq in E. apply zlist_eqb_neq. congruence. Qed.

(** Dictionaries. *)
Lemma dget_set_same {A} k (v : A) d : dget k (dset k v d) = Some v.
Proof.
  induction d as [|[k' w] d IH]; cbn [dset].
  - cbn [dget]. rewrite zlist_eqb_refl. reflexivity.
  - destruct (zlist_eqb k k') eqn:E; cbn [dget]; rewrite E; [reflexivity|exact IH].
Qed.
Lemma dget_set_other {A} k k' (v : A) d : k <> k' -> dget k (dset k' v d) = dget k d.
Proof.
  intros N. induction d as [|[k2 w] d IH]; cbn [dset].
  - cbn [dget]. apply zlist_eqb_neq in N. rewrite N. reflexivity.
  - destruct (zlist_eqb k' k2) eqn:E; cbn [dget].
    + apply zlist_eqb_eq in E. subst k2. apply zlist_eqb_neq in N. rewrite N. reflexivity.
    + destruct (zlist_eqb k k2); [reflexivity|exact IH].
Qed.
Lemma dget_default_same {A} k (v : A) d : dget k (ddefault k v d) = Some (match dget k d with Some w => w | None => v end).
Proof. unfold ddefault, dhas. destruct (dget k d) eqn:E; [exact E|apply dget_set_same]. Qed.
Lemma dget_default_other {A} k k' (v : A) d : k <> k' -> dget k (ddefault k' v d) = dget k d.
Proof. intros N. unfold ddefault. destruct (dhas k' d); [reflexivity|apply dget_set_other, N]. Qed.
Lemma dget_del_other {A} k k' (d : list (str * A)) : k <> k' -> dget k (ddel k' d) = dget k d.
Proof.
  intros N. induction d as [|[k2 w] d IH]; [reflexivity|]. cbn [ddel].
  destruct (zlist_eqb k' k2) eqn:E; cbn [dget].
  - apply zlist_eqb_eq in E. subst k2. apply zlist_eqb_neq in N. rewrite N. reflexivity.
  - destruct (zlist_eqb k k2); [reflexivity|exact IH].
Qed.
Lemma dget_none {A} k (d : list (str * A)) : dget k d = None <-> ~ In k (map fst d).
Proof.
  induction d as [|[k2 w] d IH]; cbn [dget map fst In]; [tauto|].
  destruct (zlist_eqb k k2) eqn:E.
  - apply zlist_eqb_eq in E. split; [discriminate|]. intros H. exfalso. apply H. left. congruence.
  - apply zlist_eqb_neq in E. rewrite IH. split; intros H; [intros [F|F]; [congruence|tauto]|tauto].
Qed.
Lemma dget_del_same {A} k (d : list (str * A)) : NoDup (map fst d) -> dget k (ddel k d) = None.
Proof.
  induction d as [|[k2 w] d IH]; [reflexivity|]. cbn [ddel map fst]. intros N. inversion N as [|? ? N1 N2]; subst.
  destruct (zlist_eqb k k2) eqn:E; cbn [dget].
  - apply zlist_eqb_eq in E. subst k2. apply dget_none, N1.
  - rewrite E. apply IH, N2.
Qed.
Lemma dget_in {A} k (v : A) d : dget k d = Some v -> In (k, v) d.
Proof.
  induction d as [|[k2 w] d IH]; cbn [dget]; [discriminate|]. destruct (zlist_eqb k k2) eqn:E; intros H.
  - apply zlist_eqb_eq in E. subst k2. left. congruence.
  - right. auto.
Qed.
Lemma in_dget {A} k (v : A) d : NoDup (map fst d) -> In (k, v) d -> dget k d = Some v.
Proof.
  induction d as [|[k2 w] d IH]; cbn [map fst]; [contradiction|]. intros N H. inversion N as [|? ? N1 N2]; subst. cbn [dget].
  destruct H as [H|H].
  - inversion H; subst. rewrite zlist_eqb_refl. reflexivity.
  - destruct (zlist_eqb k k2) eqn:E; [|auto]. apply zlist_eqb_eq in E. subst k2. exfalso. apply N1.
    apply in_map_iff. exists (k, v). auto.
Qed.
Lemma dset_keys {A} k (v : A) d : map fst (dset k v d) = if dhas k d then map fst d else map fst d ++ [k].
Proof.
  unfold dhas. induction d as [|[k2 w] d IH]; [reflexivity|]. cbn [dset dget].
  destruct (zlist_eqb k k2) eqn:E; cbn [map fst]; [reflexivity|]. rewrite IH. destruct (dget k d); reflexivity.
Qed.
Lemma dset_nodup {A} k (v : A) d : NoDup (map fst d) -> NoDup (map fst (dset k v d)).
Proof.
  intros N. rewrite dset_keys. destruct (dhas k d) eqn:E; [exact N|].
  assert (H : ~ In k (map fst d)) by (apply dget_none; unfold dhas in E; destruct (dget k d); [discriminate|reflexivity]).
  clear E. induction (map fst d) as [|x l IH]; cbn [app].
  - constructor; [intros []|constructor].
  - inversion N as [|? ? N1 N2]; subst. constructor.
    + intros F. apply in_app_or in F as [F|[F|[]]]; [tauto|]. apply H. left. congruence.
    + apply IH; [exact N2|]. intros F. apply H. right. exact F.
Qed.
Lemma dset_same {A} k (v : A) d : dget k d = Some v -> dset k v d = d.
Proof.
  induction d as [|[k2 w] d IH]; cbn [dget dset]; [discriminate|]. destruct (zlist_eqb k k2) eqn:E; intros H; [congruence|].
  rewrite IH by exact H. reflexivity.
Qed.
Lemma ddefault_same {A} k (v w : A) d : dget k d = Some w -> ddefault k v d = d.
Proof. intros H. unfold ddefault, dhas. rewrite H. reflexivity. Qed.
Lemma dset_forall {A} (P : str * A -> Prop) k v d : P (k, v) -> Forall P d -> Forall P (dset k v d).
Proof.
  intros H F. induction F as [|[k2 w] d Hx F IH]; cbn [dset]; [constructor; [exact H|constructor]|].
  destruct (zlist_eqb k k2) eqn:E; constructor; try assumption. apply zlist_eqb_eq in E. subst. exact H.
Qed.
Lemma dset_fresh {A} k (v : A) d : ~ In k (map fst d) -> dset k v d = d ++ [(k, v)].
Proof.
  induction d as [|[k2 w] d IH]; [reflexivity|]. cbn [dset map fst In]. intros H.
  destruct (zlist_eqb k k2) eqn:E; [apply zlist_eqb_eq in E; exfalso; apply H; left; congruence|].
  rewrite IH by tauto. reflexivity.
Qed.
Lemma rebuild {A} (d e : list (str * A)) : NoDup (map fst (e ++ d)) -> fold_left (fun e kv => dset (fst kv) (snd kv) e) d e = e ++ d.
Proof.
  revert e; induction d as [|[k v] d IH]; intros e N; cbn [fold_left fst snd]; [rewrite app_nil_r; reflexivity|].
  rewrite dset_fresh.
  - rewrite IH; rewrite <- app_assoc; cbn [app]; [reflexivity|exact N].
  - intros F. rewrite map_app in N. cbn [map fst] in N. apply NoDup_remove_2 in N. apply N, in_or_app. left. exact F.
Qed.

(** Equality. *)
Definition list_eq := fix go (l m : list pv) := match l, m with [], [] => true | x :: l, y :: m => py_eq x y && go l m | _, _ => false end.
Definition sub_eq (e : dict) := fix go (d : dict) := match d with [] => true | (k, v) :: d => match dget k e with Some w => py_eq v w | None => false end && go d end.
Lemma py_eq_list l m : py_eq (PList l) (PList m) = list_eq l m.
Proof. reflexivity. Qed.
Lemma py_eq_dict d e : py_eq (PDict d) (PDict e) = (length d =? length e)%nat && sub_eq e d.
Proof. reflexivity. Qed.
Lemma list_eq_forall l m : list_eq l m = true <-> Forall2 (fun x y => py_eq x y = true) l m.
Proof.
  revert m; induction l as [|x l IH]; intros [|y m]; split; intros H; try discriminate; try (inversion H; fail); try constructor.
  - cbn [list_eq] in H. apply andb_true_iff in H. tauto.
  - cbn [list_eq] in H. apply andb_true_iff in H as [_ H]. apply IH, H.
  - inversion H; subst. cbn [list_eq]. apply andb_true_iff. split; [assumption|]. apply IH. assumption.
Qed.
Lemma sub_eq_forall e d : sub_eq e d = true <-> Forall (fun kv => exists w, dget (fst kv) e = Some w /\ py_eq (snd kv) w = true) d.
Proof.
  induction d as [|[k v] d IH]; [split; [constructor|reflexivity]|]. cbn [sub_eq].
  rewrite andb_true_iff, IH. split.
  - intros [H F]. constructor; [|exact F]. cbn [fst snd]. destruct (dget k e) as [w|]; [|discriminate]. exists w. auto.
  - intros H. inversion H as [|? ? [w [E W]] F]; subst. cbn [fst snd] in E, W. rewrite E. auto.
Qed.
Lemma py_eq_refl v : pv_ok v -> py_eq v v = true.
Proof.
  induction v as [|b0|z0|n0 e0|s0|u0|u0|t0|t0|l H|d H] using pv_induction; intros K; cbn [py_eq as_q]; rewrite ?Z.eqb_refl, ?zlist_eqb_refl; try reflexivity.
  - inversion K as [| | | | | | | | |? L|]; subst. change (list_eq l l = true). apply list_eq_forall.
    clear K. induction l as [|x l IH]; [constructor|]. inversion H; subst. inversion L; subst. constructor; [auto|]. apply IH; assumption.
  - inversion K as [| | | | | | | | | |? N L]; subst. rewrite Nat.eqb_refl. cbn [andb]. change (sub_eq d d = true). apply sub_eq_forall.
    apply Forall_forall. intros [k v] I. exists v. cbn [fst snd]. split; [apply in_dget; assumption|].
    rewrite Forall_forall in H, L. apply (H _ I). apply (L _ I).
Qed.
(** The pigeonhole: same number of keys and one set inside the other. *)
Lemma keys_back {A B} (d : list (str * A)) (e : list (str * B)) : NoDup (map fst d) -> length d = length e ->
  (forall k, In k (map fst d) -> In k (map fst e)) -> forall k, In k (map fst e) -> In k (map fst d).
Proof.
  intros N L I k H. apply (@NoDup_length_incl _ (map fst d) (map fst e) N); [rewrite !map_length; lia|exact I|exact H].
Qed.
Lemma py_eq_sym a : forall b, pv_ok a -> pv_ok b -> py_eq a b = true -> py_eq b a = true.
Proof.
  induction a as [|b0|z0|n0 e0|s0|u0|u0|t0|t0|l H|d H] using pv_induction; intros v Ka Kb E;
    destruct v as [|b1|z1|n1 d1|s1|u1|u1|t1|t1|l0|d0]; try discriminate E; cbn [py_eq as_q] in *; try reflexivity;
    try (apply Z.eqb_eq in E; subst; apply Z.eqb_refl); try (rewrite zlist_eqb_sym; exact E);
    try (rewrite andb_true_iff, !Z.eqb_eq in *; destruct E as [E1 E2]; split; congruence).
  - change (list_eq l l0 = true) in E. change (list_eq l0 l = true). apply list_eq_forall in E. apply list_eq_forall.
    inversion Ka as [| | | | | | | | |? La|]; subst. inversion Kb as [| | | | | | | | |? Lb|]; subst. clear Ka Kb.
    induction E; [constructor|]. inversion H; subst. inversion La; subst. inversion Lb; subst. constructor; auto.
  - apply andb_true_iff in E as [L E]. rewrite Nat.eqb_sym, L. cbn [andb]. apply Nat.eqb_eq in L.
    change (sub_eq d0 d = true) in E. change (sub_eq d d0 = true). apply sub_eq_forall in E. apply sub_eq_forall.
    inversion Ka as [| | | | | | | | | |? Na Fa]; subst. inversion Kb as [| | | | | | | | | |? Nb Fb]; subst.
    apply Forall_forall. intros [k w] I. cbn [fst snd].
    assert (J : In k (map fst d)).
    { apply (keys_back d d0 Na L); [|apply in_map_iff; exists (k, w); auto].
      intros k1 I1. apply in_map_iff in I1 as [[k2 v2] [Ek I1]]. cbn [fst] in Ek. subst k2. rewrite Forall_forall in E.
      destruct (E _ I1) as [w1 [G _]]. cbn [fst] in G. apply dget_in in G. apply in_map_iff. exists (k1, w1). auto. }
    apply in_map_iff in J as [[k2 x] [Ek J]]. cbn [fst] in Ek. subst k2. exists x. split; [apply in_dget; assumption|].
    rewrite Forall_forall in E, H, Fa, Fb. destruct (E _ J) as [w1 [G Q]]. cbn [fst snd] in G, Q.
    rewrite (in_dget k w d0 Nb I) in G. assert (w1 = w) by congruence. subst w1.
    apply (H _ J); cbn [snd]; [apply (Fa _ J)|apply (Fb _ I)|exact Q].
Qed.
Lemma py_eq_comm a b : pv_ok a -> pv_ok b -> py_eq a b = py_eq b a.
Proof.
  intros A B. destruct (py_eq a b) eqn:E; [symmetry; apply py_eq_sym; assumption|].
  destruct (py_eq b a) eqn:F; [|reflexivity]. apply py_eq_sym in F; try assumption. congruence.
Qed.
