(** Grains with nothing in common. *)
From Coq Require Import String Lia ZifyBool.
From Verif Require Import Base BaseProofs PyValue PyValueProofs JsonProofs GrainObj BuildSpec BuildProofs GrainSet GrainSetSpec GrainSetProofs GrainSetMain GrainCopy GrainCopySpec GrainCopyProofs GrainCopyMade GrainCopyMain.
Local Open Scope list_scope.

Record apart (k : nat) (t : twin) (f : family) : Prop := {
  ap_in : (k < List.length (f_twins f))%nat;
  ap_is : nth k (f_twins f) nobody = t;
  ap_new : (t_meta t < f_metas f)%nat /\ (t_load t < f_loads f)%nat;
  ap_else : forall j, j <> k -> (j < List.length (f_twins f))%nat -> t_meta (nth j (f_twins f) nobody) <> t_meta t /\ t_load (nth j (f_twins f) nobody) <> t_load t }.
Lemma apart_map (F : twin -> twin) k t f : apart k t f -> F t = t -> (forall u, t_meta (F u) = t_meta u /\ t_load (F u) = t_load u) -> apart k t (mkF (map F (f_twins f)) (f_metas f) (f_loads f)).
Proof.
  intros [I N W E] Ft K. constructor; cbn [f_twins f_metas f_loads].
  - rewrite map_length. exact I.
  - rewrite (nth_indep _ nobody (F nobody)) by (rewrite map_length; exact I). rewrite map_nth, N. exact Ft.
  - exact W.
  - intros j J L. rewrite map_length in L. rewrite (nth_indep _ nobody (F nobody)) by (rewrite map_length; exact L). rewrite map_nth. destruct (K (nth j (f_twins f) nobody)) as [-> ->]. exact (E j J L).
Qed.
Lemma apart_more k t u f : apart k t f -> t_meta u <> t_meta t -> t_load u <> t_load t -> forall m l, (f_metas f <= m)%nat -> (f_loads f <= l)%nat -> apart k t (mkF (f_twins f ++ [u]) m l).
Proof.
  intros [I N W E] M L m l Hm Hl. constructor; cbn [f_twins f_metas f_loads].
  - rewrite app_length. lia.
  - rewrite app_nth1 by exact I. exact N.
  - lia.
  - intros j J K. rewrite app_length in K. cbn in K. destruct (Nat.lt_ge_cases j (List.length (f_twins f))) as [Q|Q]; [rewrite app_nth1 by exact Q; exact (E j J Q)|].
    rewrite app_nth2 by exact Q. replace (j - List.length (f_twins f))%nat with 0%nat by lia. cbn [nth]. split; assumption.
Qed.
Lemma apart_step k t f op : apart k t f -> cop_index op <> k -> (cop_index op < List.length (f_twins f))%nat -> apart k t (fst (family_step op f)) /\
  List.length (f_twins (fst (family_step op f))) = grown op (List.length (f_twins f)).
Proof.
  intros A N L. pose proof (ap_else _ _ _ A _ N L) as [M1 M2]. destruct op as [i n v|i a|i j b|i now|i now]; cbn [cop_index family_step grown] in *.
  - cbn [fst f_twins]. rewrite map_length. split; [|reflexivity]. apply apart_map; [exact A| |].
    + unfold on_metas. destruct (Nat.eqb_spec (t_meta t) (t_meta (nth i (f_twins f) nobody))); [congruence|reflexivity].
    + intros u. unfold on_metas. destruct (Nat.eqb _ _); split; reflexivity.
  - cbn [fst f_twins]. rewrite put_length. split; [|reflexivity]. destruct A as [I Q W E]. constructor; cbn [f_twins f_metas f_loads].
    + rewrite put_length. exact I.
    + rewrite put_other by congruence. exact Q.
    + lia.
    + intros j J K. rewrite put_length in K. destruct (Nat.eq_dec j i) as [->|X]; [rewrite put_same by exact K; cbn [t_meta t_load]; split; [exact M1|lia]|rewrite put_other by exact X; exact (E j J K)].
  - destruct (o_data _) as [d|]; [|split; [exact A|reflexivity]]. destruct (_ <? _)%nat; [|split; [exact A|reflexivity]]. cbn [fst f_twins]. rewrite map_length. split; [|reflexivity]. apply apart_map; [exact A| |].
    + unfold on_loads. destruct (Nat.eqb_spec (t_load t) (t_load (nth i (f_twins f) nobody))); [congruence|reflexivity].
    + intros u. unfold on_loads. destruct (Nat.eqb _ _); split; reflexivity.
  - cbn [fst f_twins]. rewrite app_length. split; [|cbn; lia]. pose proof (ap_new _ _ _ A). apply apart_more; [exact A|exact M1| |lia|lia]. cbn [t_load]. destruct (o_data _); [exact M2|lia].
  - cbn [fst f_twins]. rewrite app_length. split; [|cbn; lia]. pose proof (ap_new _ _ _ A). apply apart_more; [exact A|cbn; lia|cbn; lia|lia|lia].
Qed.
Lemma apart_steps c k t : forall ops f, apart k t f -> cops_ok c (List.length (f_twins f)) ops -> Forall (fun op => cop_index op <> k) ops -> nth k (f_twins (fst (family_steps ops f))) nobody = t.
Proof.
  induction ops as [|op ops IH]; intros f A K N; [exact (ap_is _ _ _ A)|]. destruct K as (K1 & _ & K3). destruct (apart_step k t f op A (Forall_inv N) K1) as [A' L]. cbn [family_steps].
  change (cops_ok c (grown op (List.length (f_twins f))) ops) in K3. rewrite <- L in K3. specialize (IH _ A' K3 (Forall_inv_tail N)). destruct (family_step op f) as [f1 r]. cbn [fst] in *. destruct (family_steps ops f1) as [f2 rs]. exact IH.
Qed.
Lemma view_of o ops k : faithful o -> shaped o -> o_class o <> KEvent -> cops_ok (o_class o) 1 ops -> nth k (views (fst (do_cops ops (alone o)))) (t_obj nobody) = t_obj (nth k (f_twins (fst (family_steps ops (one o)))) nobody).
Proof. intros F S N K. rewrite (proj1 (copies_are_family o ops F S N K)). apply map_nth. Qed.
(** A deep copy and the original. *)
Theorem deep_apart o now ops : faithful o -> shaped o -> o_class o <> KEvent -> cops_ok (o_class o) 2 ops ->
  (Forall (fun op => cop_index op <> 0%nat) ops -> nth 0 (views (fst (do_cops (ODeep 0 now :: ops) (alone o)))) (t_obj nobody) = o) /\
  (Forall (fun op => cop_index op <> 1%nat) ops -> nth 1 (views (fst (do_cops (ODeep 0 now :: ops) (alone o)))) (t_obj nobody) = copied o).
Proof.
  intros F S N K. assert (K' : cops_ok (o_class o) 1 (ODeep 0 now :: ops)) by (split; [cbn; lia|split; [exact I|exact K]]).
  set (f := fst (family_step (ODeep 0 now) (one o))). assert (E : forall k, nth k (f_twins (fst (family_steps (ODeep 0 now :: ops) (one o)))) nobody = nth k (f_twins (fst (family_steps ops f))) nobody).
  { intros k. cbn [family_steps family_step fst]. unfold f. cbn [family_step fst]. destruct (family_steps ops _) as [f2 rs]. reflexivity. }
  split; intros Q; rewrite (view_of o _ _ F S N K'), E.
  - rewrite (apart_steps (o_class o) 0 (mkT 0 0 o) ops f); [reflexivity| |exact K|exact Q]. constructor; [cbn; lia|reflexivity|cbn; lia|]. intros [|[|j]] J L; cbn in L |- *; lia.
  - rewrite (apart_steps (o_class o) 1 (mkT 1 1 (copied o)) ops f); [reflexivity| |exact K|exact Q]. constructor; [cbn; lia|reflexivity|cbn; lia|]. intros [|[|j]] J L; cbn in L |- *; lia.
Qed.
(** A shallow copy and the original: what is assigned to one is assigned to both, but for the payload. *)
Theorem shallow_shared o now n v : faithful o -> shaped o -> o_class o <> KEvent -> n <> $"grain_type" -> dget n (sorts (o_class o)) <> None ->
  views (fst (do_cops [OCopy 0 now; OSet 1 n v] (alone o))) = [assign n v o; assign n v (copied o)].
Proof.
  intros F S N A B. rewrite (proj1 (copies_are_family o [OCopy 0 now; OSet 1 n v] F S N ltac:(cbn [cops_ok cop_index]; repeat split; try lia; assumption))). cbn. reflexivity.
Qed.
Theorem payload_apart o now a : faithful o -> shaped o -> o_class o <> KEvent ->
  views (fst (do_cops [OCopy 0 now; OData 1 a] (alone o))) = [o; match set_data a (copied o) with Ok o' => o' | Err _ => copied o end].
Proof.
  intros F S N. rewrite (proj1 (copies_are_family o [OCopy 0 now; OData 1 a] F S N ltac:(cbn [cops_ok cop_index]; repeat split; lia))). reflexivity.
Qed.
Theorem copy_same now o : faithful o -> o_class o <> KEvent -> copy_obj now o = Ok (copied o) /\ (forall b, o_data o = Some b -> o_wait o = None -> copied o = o).
Proof. intros F N. split; [exact (copy_plain now o F N)|]. intros b D W. unfold copied. rewrite D. destruct o as [c m d w]. cbn [o_class o_meta o_data o_wait] in *. congruence. Qed.
