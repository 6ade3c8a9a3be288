(** Grouping by local id: nothing lost, duplicated or reordered. *)
From Verif Require Import Base BaseProofs Utf8 GsfPrim GsfBlock GsfDecode GsfEncode GsfBlockProofs GsfSpec GsfFileSpec
  GsfFileProofs GsfFileFacts GsfGroup.
From Coq Require Import Permutation.

(** Specification: the values with a given key, in order; the keys in order of first occurrence. *)
Definition with_key {A} (k : Z) (l : list (Z * A)) : list A := map snd (filter (fun x => fst x =? k) l).
Fixpoint first_keys (seen : list Z) {A} (l : list (Z * A)) : list Z :=
  match l with
  | [] => []
  | (k, _) :: t => if existsb (Z.eqb k) seen then first_keys seen t else k :: first_keys (seen ++ [k]) t
  end.

Lemma put_spec {A} (d : list (Z * list A)) k x :
  put d k x = (if existsb (Z.eqb k) (map fst d) then map (fun e => if fst e =? k then (fst e, snd e ++ [x]) else e) d
               else d ++ [(k, [x])]) \/ ~ NoDup (map fst d).
Proof.
  induction d as [|[j l] d IH]; [left; reflexivity|]. cbn [put map existsb fst snd]. rewrite (Z.eqb_sym k j).
  destruct (j =? k) eqn:E; cbn [orb].
  - destruct (in_dec Z.eq_dec j (map fst d)) as [HI|HI]; [right; intros HN; inversion HN; contradiction|left].
    f_equal. apply Z.eqb_eq in E. subst k. rewrite <- (map_id d) at 1. apply map_ext_in. intros [i m] Hi. cbn [fst].
    destruct (i =? j) eqn:Eij; [|reflexivity]. apply Z.eqb_eq in Eij. subst i. contradict HI. apply in_map_iff. exists (j, m). auto.
  - destruct IH as [IH|IH]; [left|right; intros HN; inversion HN; contradiction].
    rewrite IH. destruct (existsb _ _); reflexivity.
Qed.

Lemma existsb_in k l : existsb (Z.eqb k) l = true <-> In k l.
Proof.
  rewrite existsb_exists. split; [intros (x & H & E); apply Z.eqb_eq in E; now subst|].
  intros H. exists k. split; [exact H|apply Z.eqb_refl].
Qed.

Lemma put_keys {A} (d : list (Z * list A)) k x : NoDup (map fst d) ->
  map fst (put d k x) = (if existsb (Z.eqb k) (map fst d) then map fst d else map fst d ++ [k]) /\ NoDup (map fst (put d k x)).
Proof.
  intros HN. destruct (put_spec d k x) as [E|E]; [|contradiction]. rewrite E. destruct (existsb _ _) eqn:EX.
  - assert (map fst (map (fun e => if fst e =? k then (fst e, snd e ++ [x]) else e) d) = map fst d) as ->.
    { rewrite map_map. apply map_ext. intros [j l]. cbn [fst snd]. destruct (j =? k); reflexivity. }
    now split.
  - rewrite map_app. cbn [map fst]. split; [reflexivity|]. apply (Permutation_NoDup (Permutation_cons_append _ k)). constructor; [|exact HN].
    intros HI. apply existsb_in in HI. congruence.
Qed.

Lemma group_from_keys {A} (l : list (Z * A)) : forall d, NoDup (map fst d) ->
  map fst (group_from d l) = map fst d ++ first_keys (map fst d) l /\ NoDup (map fst (group_from d l)).
Proof.
  induction l as [|[k x] l IH]; intros d HN; cbn [group_from first_keys]; [now rewrite app_nil_r|].
  destruct (put_keys d k x HN) as [E HN']. destruct (IH _ HN') as [E1 E2]. split; [|exact E2]. rewrite E1, E.
  destruct (existsb _ _); [reflexivity|]. now rewrite <- app_assoc.
Qed.

Definition lookup {A} (d : list (Z * list A)) (k : Z) : list A :=
  match find (fun e => fst e =? k) d with Some e => snd e | None => [] end.

Lemma put_lookup {A} (d : list (Z * list A)) k x j : lookup (put d k x) j = lookup d j ++ (if k =? j then [x] else []).
Proof.
  unfold lookup. induction d as [|[i l] d IH]; cbn [put find fst snd].
  - destruct (k =? j); reflexivity.
  - destruct (i =? k) eqn:E; cbn [find fst snd].
    + apply Z.eqb_eq in E. subst i. destruct (k =? j) eqn:E2; [reflexivity|]. now rewrite app_nil_r.
    + destruct (i =? j) eqn:E2; [|exact IH]. cbn [snd]. destruct (k =? j) eqn:E3; [lia|]. now rewrite app_nil_r.
Qed.

Lemma group_from_lookup {A} (l : list (Z * A)) : forall d j, lookup (group_from d l) j = lookup d j ++ with_key j l.
Proof.
  induction l as [|[k x] l IH]; intros d j; cbn [group_from]; [now rewrite app_nil_r|].
  rewrite IH, put_lookup, <- app_assoc. f_equal. unfold with_key. cbn [filter fst]. destruct (k =? j); reflexivity.
Qed.

Lemma lookup_in {A} (d : list (Z * list A)) k l : NoDup (map fst d) -> In (k, l) d -> lookup d k = l.
Proof.
  unfold lookup. induction d as [|[j m] d IH]; [contradiction|]. cbn [map fst find]. intros HN [E|HI].
  - inversion E; subst. now rewrite Z.eqb_refl.
  - destruct (j =? k) eqn:EK; [|inversion HN; auto]. apply Z.eqb_eq in EK. subst j. inversion HN as [|? ? H1 H2]; subst.
    contradict H1. apply in_map_iff. exists (k, l). auto.
Qed.

Lemma put_perm {A} (d : list (Z * list A)) k x : Permutation (flat_map snd (put d k x)) (flat_map snd d ++ [x]).
Proof.
  induction d as [|[j l] d IH]; [reflexivity|]. cbn [put]. destruct (j =? k); cbn [flat_map snd].
  - rewrite <- !app_assoc. apply Permutation_app_head. apply Permutation_app_comm.
  - rewrite <- app_assoc. now apply Permutation_app_head.
Qed.

Lemma group_from_perm {A} (l : list (Z * A)) : forall d, Permutation (flat_map snd (group_from d l)) (flat_map snd d ++ map snd l).
Proof.
  induction l as [|[k x] l IH]; intros d; cbn [group_from map snd]; [now rewrite app_nil_r|].
  rewrite IH. rewrite put_perm, <- app_assoc. reflexivity.
Qed.

(** Each group is exactly the sub-sequence with its key; the keys are those that occur, once each, in order of first
    occurrence; all the groups together are all the values. *)
Theorem group_ok {A} (l : list (Z * A)) :
  Forall (fun e => snd e = with_key (fst e) l /\ snd e <> []) (group l) /\
  map fst (group l) = first_keys [] l /\ NoDup (map fst (group l)) /\
  (forall k, In k (map fst (group l)) <-> In k (map fst l)) /\
  Permutation (flat_map snd (group l)) (map snd l).
Proof.
  destruct (group_from_keys l [] (NoDup_nil _)) as [E HN]. cbn [map app] in E. unfold group.
  assert (forall k, In k (map fst (group_from [] l)) <-> In k (map fst l)) as HK.
  { intros k. rewrite E. clear. enough (forall seen, In k (first_keys seen l) <-> In k (map fst l) /\ ~ In k seen) as H
      by (rewrite H; split; [intros [? _]; assumption|intros ?; split; [assumption|intros []]]).
    induction l as [|[j x] l IH]; intros seen; cbn [first_keys map fst In]; [tauto|].
    destruct (existsb (Z.eqb j) seen) eqn:EX.
    - apply existsb_in in EX. rewrite IH. split; [tauto|]. intros [[->|H] HS]; [contradiction|tauto].
    - assert (~ In j seen) by (intros HI; apply existsb_in in HI; congruence).
      cbn [In]. rewrite IH, in_app_iff. cbn [In]. split.
      + intros [<-|[H1 H2]]; tauto.
      + intros [[<-|H1] H2]; [tauto|]. destruct (Z.eq_dec j k); [tauto|]. right. tauto. }
  split; [|split; [exact E|split; [exact HN|split; [exact HK|apply (group_from_perm l [])]]]].
  apply Forall_forall. intros [k g] HI. cbn [fst snd].
  assert (g = with_key k l) as ->.
  { rewrite <- (lookup_in _ _ _ HN HI). apply (group_from_lookup l [] k). }
  split; [reflexivity|]. assert (In k (map fst l)) as H by (apply HK, in_map_iff; exists (k, with_key k l); auto).
  apply in_map_iff in H. destruct H as ([k' x] & <- & H). cbn [fst]. intros HE.
  assert (In x (with_key k' l)) as H2.
  { unfold with_key. apply in_map_iff. exists (k', x). split; [reflexivity|]. apply filter_In. split; [exact H|]. apply Z.eqb_refl. }
  rewrite HE in H2. contradiction.
Qed.

(** Grouping does not look at the values. *)
Lemma group_from_map {A B} (f : A -> B) (l : list (Z * A)) : forall d,
  map (fun e => (fst e, map f (snd e))) (group_from d l) =
  group_from (map (fun e => (fst e, map f (snd e))) d) (map (fun x => (fst x, f (snd x))) l).
Proof.
  induction l as [|[k x] l IH]; intros d; [reflexivity|]. cbn [group_from map fst snd]. rewrite IH. f_equal.
  clear. induction d as [|[j m] d IH]; [reflexivity|]. cbn [put map fst snd]. destruct (j =? k); cbn [map fst snd].
  - now rewrite map_app.
  - now rewrite IH.
Qed.

(** The bytes of an immediately loaded payload. *)
Definition now (p : payload) : bytes := match p with PBytes d => d | _ => [] end.
Definition by_local (x : shown) : Z * (gmeta * bytes) := (snd x, fst x).
Definition seen_groups (d : list (Z * list (gmeta * payload))) : list (Z * list (gmeta * bytes)) :=
  map (fun e => (fst e, map (fun i => (fst i, now (snd i))) (snd e))) d.

(** load on any input that decodes: the header in force at the end and the groups of the grains. *)
Theorem load_groups cc back fwd' lazy strict fwd data s0 s v h :
  decodes_to (mkCfg None LoadImmediately cc back fwd' lazy) strict fwd data s0 s v -> s_head s = Some h ->
  exists d, load cc back fwd' lazy (mkFile data 0 strict fwd) = Ok (h, d) /\ seen_groups d = group (map by_local v).
Proof.
  intros (l & E & EV & HF) EH. unfold load. rewrite E, EH. eexists. split; [reflexivity|].
  unfold seen_groups, group. rewrite group_from_map. cbn [map]. f_equal. rewrite <- EV, !map_map. apply map_ext_in.
  intros [m p loc] HI. rewrite Forall_forall in HF. specialize (HF _ HI). unfold keyed, view, by_local. cbn [i_local i_meta i_data fst snd] in *.
  inversion HF as [|d' _ _ Ed|? ? [H|H] _ _|? ? [H|H] _ _]; subst; try discriminate H; reflexivity.
Qed.
