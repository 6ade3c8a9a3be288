(** Slices of whole lists, forwards and backwards, and the step 0. *)
From Coq Require Import Lia ZifyBool ZifyNat.
From Verif Require Import Base PySlice PyList PyListProofs.
Local Open Scope list_scope.

Definition item {A} (l : list A) (j : Z) : list A := match zskip j l with x :: _ => [x] | [] => [] end.
Lemma item_here {A} (a : list A) x b : item (a ++ x :: b) (zlen a) = [x].
Proof. unfold item. rewrite zskip_here. reflexivity. Qed.
Lemma item_app {A} (a b : list A) j : 0 <= j < zlen a -> item (a ++ b) j = item a j.
Proof. intros H. destruct (split_at a j H) as (c & x & d & -> & <-). rewrite <- app_assoc. cbn [app]. rewrite !item_here. reflexivity. Qed.
Lemma items_from {A} (l : list A) : forall a, flat_map (fun k => item (a ++ l) (Z.of_nat k)) (seq (length a) (length l)) = l.
Proof.
  induction l as [|x l IH]; intros a; [reflexivity|]. cbn [length seq flat_map]. change (Z.of_nat (length a)) with (zlen a). rewrite item_here. cbn [app]. f_equal.
  specialize (IH (a ++ [x])). rewrite <- app_assoc, app_length in IH. cbn [length app] in IH. rewrite Nat.add_1_r in IH. exact IH.
Qed.
Lemma items_back {A} (l : list A) : flat_map (fun k => item l (zlen l - 1 - Z.of_nat k)) (seq 0 (length l)) = rev l.
Proof.
  induction l as [|x l IH] using rev_ind; [reflexivity|]. rewrite rev_app_distr, app_length, Nat.add_1_r. cbn [rev app seq flat_map length].
  rewrite zlen_app', zlen_cons'. replace (zlen l + (1 + zlen (@nil A)) - 1 - Z.of_nat 0) with (zlen l) by (unfold zlen; cbn [length]; lia). rewrite item_here. cbn [app]. f_equal.
  rewrite <- IH, <- seq_shift, !flat_map_concat_map, map_map. f_equal. apply map_ext_in. intros k I. apply in_seq in I.
  replace (zlen l + (1 + zlen (@nil A)) - 1 - Z.of_nat (S k)) with (zlen l - 1 - Z.of_nat k) by (unfold zlen; cbn [length]; lia). apply item_app. unfold zlen. lia.
Qed.
Lemma flat_map_map {A B C} (f : B -> list C) (g : A -> B) l : flat_map f (map g l) = flat_map (fun x => f (g x)) l.
Proof. rewrite !flat_map_concat_map, map_map. reflexivity. Qed.
Theorem slice_whole {A} (l : list A) : lslice l (mkSlice None None None) = Ok l.
Proof.
  unfold lslice, slice_positions, indices, zrange. cbn [sl_step sl_start sl_stop]. change (1 =? 0) with false. change (1 <? 0) with false. cbn [rbind]. f_equal.
  assert (E : Z.to_nat (range_len 0 (zlen l) 1) = length l). { unfold range_len. change (1 <? 0) with false. cbv iota. unfold zlen. destruct (0 <? Z.of_nat (length l)) eqn:X; [rewrite Z.div_1_r; lia|lia]. }
  rewrite E, flat_map_map. etransitivity; [|exact (items_from l [])]. rewrite !flat_map_concat_map. cbn [app length]. f_equal. apply map_ext. intros k. unfold item. replace (0 + Z.of_nat k * 1) with (Z.of_nat k) by lia. reflexivity.
Qed.
Theorem slice_reverse {A} (l : list A) : lslice l (mkSlice None None (Some (-1))) = Ok (rev l).
Proof.
  unfold lslice, slice_positions, indices, zrange. cbn [sl_step sl_start sl_stop]. change (-1 =? 0) with false. change (-1 <? 0) with true. cbn [rbind]. f_equal.
  assert (E : Z.to_nat (range_len (zlen l - 1) (-1) (-1)) = length l). { unfold range_len. change (-1 <? 0) with true. cbv iota. change (- -1) with 1. unfold zlen. destruct (-1 <? Z.of_nat (length l) - 1) eqn:X; [rewrite Z.div_1_r; lia|lia]. }
  rewrite E, flat_map_map, <- (items_back l), !flat_map_concat_map. f_equal. apply map_ext. intros k. unfold item. replace (zlen l - 1 + Z.of_nat k * -1) with (zlen l - 1 - Z.of_nat k) by lia. reflexivity.
Qed.
Theorem slice_no_step {A} (l : list A) a b : lslice l (mkSlice a b (Some 0)) = Err EValue /\ lslice_cut l (mkSlice a b (Some 0)) = Err EValue.
Proof. split; reflexivity. Qed.
