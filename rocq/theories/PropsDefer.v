(** C75: the operators of deferred byte strings, and the equality of grains whose payloads are deferred. *)
From Coq Require Import Lia.
From Verif Require Import Base GsfPrim GsfBlock GsfDecode GsfSpec GsfExamples GsfFileSpec PyValue PyList ListSpec GrainObj GrainGsf IoBytes IoBytesSpec
  DeferOps DeferSpec DeferProofs DeferDecode DeferDecodeProofs DeferExample.

(** With bytes on one side at least, on whichever, ==, !=, <, <=, > and >= mean what they mean for the bytes, and the streams stay
    where they are. *)
Theorem C75_with_bytes : forall h o a b, loadable h -> there h a -> there h b -> plain a \/ plain b ->
  says (snd (compare h o a b)) (meaning o (stands h a) (stands h b)) /\ unseen h (fst (compare h o a b)).
Proof. exact with_bytes. Qed.
Print Assumptions C75_with_bytes.

Example C75_with_bytes_ex : stands ex_store (Defer 0) = [1; 2; 3] /\
  map (fun o => snd (compare ex_store o (Defer 0) (Plain [1; 2; 4]))) [CEq; CNe; CLt; CLe; CGt; CGe] =
    [Ok false; Ok true; Ok true; Ok true; Ok false; Ok false] /\
  map (fun o => snd (compare ex_store o (Plain [1; 2; 3; 0]) (Defer 0))) [CEq; CNe; CLt; CLe; CGt; CGe] =
    [Ok false; Ok true; Ok false; Ok false; Ok true; Ok true] /\
  snd (compare ex_store CEq (Plain [1; 2; 3]) (Defer 0)) = Ok true.
Proof. vm_compute. repeat split; reflexivity. Qed.

(** Between two deferred byte strings == and != say only whether they are the same object; the others raise TypeError. *)
Theorem C75_each_other : forall h o i j, loadable h -> there h (Defer i) -> there h (Defer j) ->
  snd (compare h o (Defer i) (Defer j)) =
    match o with CEq => Ok (Nat.eqb i j) | CNe => Ok (negb (Nat.eqb i j)) | _ => Err EType end /\
  unseen h (fst (compare h o (Defer i) (Defer j))).
Proof. exact with_each_other. Qed.
Print Assumptions C75_each_other.

Example C75_each_other_ex : loadable ex_store /\
  snd (compare ex_store CEq (Defer 0) (Defer 0)) = Ok true /\ snd (compare ex_store CLt (Defer 0) (Defer 2)) = Err EType.
Proof. split; [repeat apply Forall_cons; try apply Forall_nil; cbn; lia|]. vm_compute. split; reflexivity. Qed.

(** So they do not mean what they mean for bytes there. *)
Theorem C75_equal_refuted : exists h a b, loadable h /\ there h a /\ there h b /\
  stands h a = stands h b /\ snd (compare h CEq a b) = Ok false /\ snd (compare h CLe a b) = Err EType.
Proof.
  exists ex_store, (Defer 0), (Defer 1). split; [repeat apply Forall_cons; try apply Forall_nil; cbn; lia|].
  split; [cbn; lia|]. split; [cbn; lia|]. vm_compute. repeat split; reflexivity.
Qed.
Print Assumptions C75_equal_refuted.

(** The item at an index, counted from either end, is that of the bytes. *)
Theorem C75_index : forall h i k, loadable h -> there h (Defer i) ->
  (forall a c b, at_index (stands h (Defer i)) k a c b -> snd (item_at h i k) = Ok c) /\
  (no_index (stands h (Defer i)) k -> snd (item_at h i k) = Err EIndex) /\ unseen h (fst (item_at h i k)).
Proof. exact indexing. Qed.
Print Assumptions C75_index.

Example C75_index_ex : map (fun k => snd (item_at ex_store 2 k)) [0; 2; 3; -1; -3; -4] =
  [Ok 1; Ok 4; Err EIndex; Ok 4; Ok 1; Err EIndex].
Proof. vm_compute. reflexivity. Qed.

(** Iterating gives the bytes, whatever length was promised. *)
Theorem C75_iterate : forall h i n, loadable h -> there h (Defer i) -> zlen (stands h (Defer i)) < Z.of_nat n ->
  snd (items_from n h i 0) = Ok (stands h (Defer i)) /\ unseen h (fst (items_from n h i 0)).
Proof. exact iterating. Qed.
Print Assumptions C75_iterate.

Example C75_iterate_ex : snd (items_from 9 ex_store 0 0) = Ok [1; 2; 3] /\ snd (items_from 9 ex_store 3 0) = Ok [2; 4].
Proof. vm_compute. split; reflexivity. Qed.

(** Going backwards gives them in reverse if the promise is kept, and raises IndexError if the stream is too short and nothing was
    loaded before. The truth value is that of the promised length. *)
Theorem C75_reversed : forall h i, loadable h -> there h (Defer i) ->
  (length_of h i = zlen (stands h (Defer i)) -> snd (reversed_of h i) = Ok (rev (stands h (Defer i)))) /\
  (zlen (stands h (Defer i)) < length_of h i -> snd (reversed_of h i) = Err EIndex) /\
  (truth_of h i = true <-> length_of h i <> 0).
Proof. exact backwards. Qed.
Print Assumptions C75_reversed.

Example C75_reversed_ex : snd (reversed_of ex_store 2) = Ok [4; 2; 1] /\ snd (reversed_of ex_store 3) = Err EIndex /\
  length_of ex_store 3 = 4 /\ snd (reversed_of (fst (item_at ex_store 3 0)) 3) = Ok [4; 2].
Proof. vm_compute. repeat split; reflexivity. Qed.

(** Grains are equal if their metadata and the bytes of their payloads are, unless both payloads are deferred: then they must be
    the same object. *)
Theorem C75_grains : forall h g g', loadable h -> held_there h (dg_data g) -> held_there h (dg_data g') ->
  (~ (deferred (dg_data g) /\ deferred (dg_data g')) ->
     says (snd (dgrain_eq h g g')) (same_meta g g' /\ held h (dg_data g) = held h (dg_data g'))) /\
  (forall i j, dg_data g = Some (Defer i) -> dg_data g' = Some (Defer j) ->
     says (snd (dgrain_eq h g g')) (same_meta g g' /\ i = j)) /\
  unseen h (fst (dgrain_eq h g g')).
Proof. exact grains_equal. Qed.
Print Assumptions C75_grains.

Example C75_grains_ex :
  let g d := mkDg ex_meta d in
  map (fun d => snd (dgrain_eq ex_store (g (Some (Defer 0))) (g d))) [Some (Plain [1; 2; 3]); Some (Plain [1; 2]); None; Some (Defer 0); Some (Defer 1)] =
  [Ok true; Ok false; Ok false; Ok true; Ok false].
Proof. vm_compute. reflexivity. Qed.

(** copy.copy shares the payload and copy.deepcopy loads it: both are equal to the original. *)
Theorem C75_copies : forall h g, loadable h -> held_there h (dg_data g) -> same_meta g g ->
  snd (dgrain_eq h g (shallow h g)) = Ok true /\
  exists h' g', deep h g = (h', Ok g') /\ unseen h h' /\ ~ deferred (dg_data g') /\ held h' (dg_data g') = held h (dg_data g) /\
    snd (dgrain_eq h' g g') = Ok true /\ snd (dgrain_eq h' g' g) = Ok true.
Proof. exact copies_equal. Qed.
Print Assumptions C75_copies.

Example C75_copies_ex :
  match deep ex_store (mkDg ex_meta (Some (Defer 2))) with
  | (_, Ok g) => dg_data g = Some (Plain [1; 2; 4]) /\ same_meta g g
  | _ => False
  end.
Proof. vm_compute. split; reflexivity. Qed.

(** The same grain of the same file decoded twice: the metadata and the bytes are the same, but where the payload was deferred the
    grains are unequal. *)
Theorem C75_decoded_twice : forall now data p i h g g', twice now data p i = (h, Ok (g, g')) ->
  (forall pos len, i_data i = PIOBytes pos len -> 0 <= pos /\ 0 <= len) ->
  held h (dg_data g) = held h (dg_data g') /\ dg_meta g = dg_meta g' /\
  ((exists pos len, i_data i = PIOBytes pos len) -> snd (dgrain_eq h g g') = Ok false) /\
  (~ (exists pos len, i_data i = PIOBytes pos len) -> says (snd (dgrain_eq h g g')) (same_meta g g')).
Proof. exact decoded_twice. Qed.
Print Assumptions C75_decoded_twice.

Example C75_decoded_twice_ex :
  match ex_first with
  | Some i =>
      match twice 0 (gsf_bytes ex_file) 0 i with
      | (h, Ok (g, g')) =>
          same_meta g g' /\ held h (dg_data g) = Some [1; 2; 3; 4; 5; 6; 7; 8; 9; 10] /\ held h (dg_data g') = held h (dg_data g) /\
          snd (dgrain_eq h g g') = Ok false
      | _ => False
      end
  | None => False
  end.
Proof. vm_compute. repeat split; reflexivity. Qed.
