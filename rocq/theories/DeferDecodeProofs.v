(** Proofs about decoded grains with deferred payloads. *)
From Coq Require Import Lia.
From Verif Require Import Base BaseProofs GsfDecode PyValue GrainObj GrainGsf IoBytes IoBytesSpec DeferOps DeferSpec DeferProofs DeferDecode.

Theorem decoded_twice now data p i h g g' : twice now data p i = (h, Ok (g, g')) ->
  (forall pos len, i_data i = PIOBytes pos len -> 0 <= pos /\ 0 <= len) ->
  held h (dg_data g) = held h (dg_data g') /\ dg_meta g = dg_meta g' /\
  ((exists pos len, i_data i = PIOBytes pos len) -> snd (dgrain_eq h g g') = Ok false) /\
  (~ (exists pos len, i_data i = PIOBytes pos len) -> says (snd (dgrain_eq h g g')) (same_meta g g')).
Proof.
  intros E HP. unfold twice, arrival in E. destruct (item_object now data i) as [o|e]; [|discriminate].
  destruct (i_data i) as [|b|pos len|pos len b] eqn:ED; cbn [rbind] in E.
  - apply pair_equal_spec in E. destruct E as [E1 E2]. subst h. inversion E2. subst g g'. cbn [dg_data dg_meta held].
    split; [reflexivity|]. split; [reflexivity|]. split; [intros (? & ? & X); discriminate|]. intros _.
    destruct (grains_equal [] (mkDg (o_meta o) None) (mkDg (o_meta o) None) (Forall_nil _) I I) as [G _].
    destruct G as (v & V1 & V2); [intros [[] _]|]. exists v. split; [exact V1|]. rewrite V2. cbn [dg_data held]. tauto.
  - apply pair_equal_spec in E. destruct E as [E1 E2]. subst h. inversion E2. subst g g'. cbn [dg_data dg_meta held].
    split; [reflexivity|]. split; [reflexivity|]. split; [intros (? & ? & X); discriminate|]. intros _.
    destruct (grains_equal [] (mkDg (o_meta o) (Some (Plain b))) (mkDg (o_meta o) (Some (Plain b))) (Forall_nil _) I I) as [G _].
    destruct G as (v & V1 & V2); [intros [[] _]|]. exists v. split; [exact V1|]. rewrite V2. cbn [dg_data held]. tauto.
  - apply pair_equal_spec in E. destruct E as [E1 E2]. cbn [app List.length] in *. subst h. inversion E2. subst g g'.
    cbn [dg_data dg_meta held stands nth_error]. split; [reflexivity|]. split; [reflexivity|].
    split; [|intros N; destruct N; eauto]. intros _.
    destruct (HP _ _ eq_refl) as [H1 H2].
    set (h := [io_new pos len data p; io_new pos len data p]).
    assert (loadable h) as LH by (unfold loadable, h; repeat apply Forall_cons; try apply Forall_nil; split; assumption).
    destruct (grains_equal h (mkDg (o_meta o) (Some (Defer 0))) (mkDg (o_meta o) (Some (Defer 1))) LH) as (_ & G & _);
      [cbn; lia|cbn; lia|]. destruct (G 0%nat 1%nat eq_refl eq_refl) as (v & V1 & V2). rewrite V1. f_equal.
    destruct v; [|reflexivity]. destruct (proj1 V2 eq_refl) as [_ X]. discriminate X.
  - apply pair_equal_spec in E. destruct E as [E1 E2]. subst h. inversion E2. subst g g'. cbn [dg_data dg_meta held].
    split; [reflexivity|]. split; [reflexivity|]. split; [intros (? & ? & X); discriminate|]. intros _.
    destruct (grains_equal [] (mkDg (o_meta o) None) (mkDg (o_meta o) None) (Forall_nil _) I I) as [G _].
    destruct G as (v & V1 & V2); [intros [[] _]|]. exists v. split; [exact V1|]. rewrite V2. cbn [dg_data held]. tauto.
Qed.
