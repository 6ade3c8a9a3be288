(** C49: time labels, unit offsets and components as lists. *)
From Coq Require Import String.
From Verif Require Import Base PyValue PyList ListSpec GrainObj CompareSpec Lists ListsSpec ListsMain ListsAttr ListsExample SliceWhole.
Local Open Scope list_scope.

(** Every history of operations that do not use slices does what it does on an ordinary list, errors included, and leaves the rest of the grain alone. *)
Theorem C49_history k ops o l o' rs : Forall (lop_ok k) ops -> Forall by_index ops -> shows_list k o l -> do_ops k ops o = (o', rs) ->
  exists l', list_steps k ops l l' rs /\ shows_list k o' l' /\ same_but_list k o o'.
Proof. exact (index_history k ops o l o' rs). Qed.
Print Assumptions C49_history.
Example C49_history_ex : let '(o, rs) := do_ops Labels ex_label_ops ex_coded in
  rs = [Ok (PInt 0); Err EIndex; Ok PNone; Ok PNone; Ok PNone; Ok (PInt 1); Ok PNone; Ok PNone; Ok (PBool false); Ok PNone; Ok (PList [])] /\ o_meta o = o_meta ex_coded.
Proof. vm_compute. split; reflexivity. Qed.
(** With slices, the differences are exactly those of [deviates]. *)
Theorem C49_slices k ops o l o' rs : Forall (lop_ok k) ops -> shows_list k o l -> do_ops k ops o = (o', rs) ->
  exists l', steps k ops l l' rs /\ shows_list k o' l' /\ same_but_list k o o'.
Proof. exact (list_history k ops o l o' rs). Qed.
Print Assumptions C49_slices.
Example C49_slices_ex : snd (do_ops Offsets ex_offset_ops ex_coded) =
  [Ok PNone; Ok PNone; Ok (PList [PInt 30; PInt 10]); Ok PNone; Ok (PList [PInt 20; PInt 7; PInt 30]); Ok PNone; Err EValue; Ok PNone; Ok (PInt 0); Err EIndex; Err EIndex; Ok PNone; Ok (PList [PInt 1])].
Proof. vm_compute. reflexivity. Qed.
(** A grain shows the lists that are read from it (its dictionaries have distinct keys). *)
Theorem C49_shows_labels o ds : meta_ok o -> labels o = Ok ds -> shows_list Labels o (map PDict ds).
Proof. exact (shows_labels o ds). Qed.
Print Assumptions C49_shows_labels.
Theorem C49_shows_offsets o l : meta_ok o -> offsets o = Ok l -> shows_list Offsets o l.
Proof. exact (shows_offsets o l). Qed.
Print Assumptions C49_shows_offsets.
Theorem C49_shows_comps o g l : meta_ok o -> holder Comps o = Ok g -> dget $"components" g = Some (PList l) -> shows_list Comps o l.
Proof. exact (shows_comps o g l). Qed.
Print Assumptions C49_shows_comps.
Theorem C49_read_labels o l : shows_list Labels o l -> exists ds, labels o = Ok ds /\ l = map PDict ds.
Proof. exact (labels_shown o l). Qed.
Print Assumptions C49_read_labels.
Theorem C49_read_offsets o l : shows_list Offsets o l -> offsets o = Ok l.
Proof. exact (offsets_shown o l). Qed.
Print Assumptions C49_read_offsets.
Example C49_shows_ex : labels (ex_labelled []) = Ok [] /\ rbind (labels (ex_labelled [1; 2])) (fun l => Ok (map PDict l)) = Ok [ex_filled 1; ex_filled 2] /\
  offsets ex_coded = Ok [PInt 0; PInt 10; PInt 20] /\ rbind (raw Comps ex_video) (fun l => Ok (match l with Some l => zlen l | None => -1 end)) = Ok 3.
Proof. vm_compute. repeat split. Qed.

(** Assigning the attributes. *)
Theorem C49_assign_labels vs ws o d : holder Labels o = Ok d -> NoDup (map fst d) -> Forall2 (fun v w => norm Labels v = Ok w) vs ws ->
  exists o', set_labels vs o = (o', Ok PNone) /\ shows_list Labels o' ws /\ same_but_list Labels o o'.
Proof. exact (assign_labels vs ws o d). Qed.
Print Assumptions C49_assign_labels.
Theorem C49_assign_offsets vs o d : holder Offsets o = Ok d -> NoDup (map fst d) ->
  exists o', set_offset_list vs o = (o', Ok PNone) /\ shows_list Offsets o' (match vs with Some l => l | None => [] end) /\ same_but_list Offsets o o' /\
    (vs = None \/ vs = Some [] -> forall d', holder Offsets o' = Ok d' -> dhas $"unit_offsets" d' = false).
Proof. exact (assign_offsets vs o d). Qed.
Print Assumptions C49_assign_offsets.
Example C49_assign_ex : rbind (labels (fst (set_labels [ex_label 4] (ex_labelled [1; 2])))) (fun l => Ok (map PDict l)) = Ok [ex_filled 4] /\
  offsets (fst (set_offset_list None ex_coded)) = Ok [] /\ offsets (fst (set_offset_list (Some [PInt 5]) ex_coded)) = Ok [PInt 5].
Proof. vm_compute. repeat split. Qed.

(** Adding a label and editing one: what is set is what is read, in that label only. *)
Theorem C49_add_label tag count z rate n m drop o l : to_int count = Ok z -> mk_frac rate (PInt 1) = Ok (PFrac n m) -> shows_list Labels o l ->
  exists o' d, add_timelabel tag count rate drop o = (o', Ok PNone) /\ shows_list Labels o' (l ++ [PDict d]) /\ same_but_list Labels o o' /\ label_reads d tag (PInt z) (PFrac n m) (PBool (truthy drop)).
Proof. exact (add_label tag count z rate n m drop o l). Qed.
Print Assumptions C49_add_label.
Theorem C49_edit_tag o l i a v b w : shows_list Labels o l -> at_index l i a v b ->
  exists o' d d', v = PDict d /\ edit_label i (put_tag w) o = (o', Ok PNone) /\ shows_list Labels o' (a ++ PDict d' :: b) /\ same_but_list Labels o o' /\
    label_tag d' = Ok w /\ label_count d' = label_count d /\ label_rate d' = label_rate d /\ label_drop d' = label_drop d.
Proof. exact (edit_tag o l i a v b w). Qed.
Print Assumptions C49_edit_tag.
Theorem C49_edit_count o l i a v b c z : shows_list Labels o l -> at_index l i a v b -> to_int c = Ok z ->
  exists o' d d', v = PDict d /\ edit_label i (put_count c) o = (o', Ok PNone) /\ shows_list Labels o' (a ++ PDict d' :: b) /\ same_but_list Labels o o' /\
    label_count d' = Ok (PInt z) /\ label_tag d' = label_tag d /\ label_rate d' = label_rate d /\ label_drop d' = label_drop d.
Proof. exact (edit_count o l i a v b c z). Qed.
Print Assumptions C49_edit_count.
Theorem C49_edit_rate o l i a v b w n m : shows_list Labels o l -> at_index l i a v b -> mk_frac w (PInt 1) = Ok (PFrac n m) ->
  exists o' d d', v = PDict d /\ edit_label i (put_rate w) o = (o', Ok PNone) /\ shows_list Labels o' (a ++ PDict d' :: b) /\ same_but_list Labels o o' /\
    label_rate d' = Ok (PFrac n m) /\ label_tag d' = label_tag d /\ label_count d' = label_count d /\ label_drop d' = label_drop d.
Proof. exact (edit_rate o l i a v b w n m). Qed.
Print Assumptions C49_edit_rate.
Theorem C49_edit_drop o l i a v b w : shows_list Labels o l -> at_index l i a v b ->
  exists o' d d', v = PDict d /\ edit_label i (put_drop w) o = (o', Ok PNone) /\ shows_list Labels o' (a ++ PDict d' :: b) /\ same_but_list Labels o o' /\
    label_drop d' = Ok (PBool (truthy w)) /\ label_tag d' = label_tag d /\ label_count d' = label_count d /\ label_rate d' = label_rate d.
Proof. exact (edit_drop o l i a v b w). Qed.
Print Assumptions C49_edit_drop.
Theorem C49_edit_bad i f o l a d b e : shows_list Labels o l -> at_index l i a (PDict d) b -> f d = Err e ->
  exists o', edit_label i f o = (o', Err e) /\ shows_list Labels o' l /\ same_but_list Labels o o'.
Proof. exact (edit_bad i f o l a d b e). Qed.
Print Assumptions C49_edit_bad.
Example C49_edit_ex : let o := fst (add_timelabel (PStr $"t") (PFrac 7 2) (PFrac 50 2) (PInt 5) (ex_labelled [1])) in let o := fst (edit_label (-2) (put_count (PInt 9)) o) in
  rbind (labels o) (map_res label_count) = Ok [PInt 9; PInt 3] /\ rbind (labels o) (map_res label_rate) = Ok [PFrac 0 1; PFrac 25 1] /\
  rbind (labels o) (map_res label_drop) = Ok [PBool false; PBool true] /\ rbind (labels o) (map_res label_tag) = Ok [PInt 1; PStr $"t"].
Proof. vm_compute. repeat split. Qed.

(** Slices: the positions are those of the arithmetic progression, the items those at the positions. *)
Theorem C49_positions n s p : 0 <= n -> slice_positions n s = Ok p ->
  exists a b k, indices n s = Ok (a, b, k) /\ forall j, In j p <-> exists t, 0 <= t /\ j = a + t * k /\ (if k <? 0 then b < j else j < b).
Proof. exact (positions_are n s p). Qed.
Print Assumptions C49_positions.
Theorem C49_slice_items (l r : list pv) s : lslice l s = Ok r -> exists p, slice_positions (zlen l) s = Ok p /\ Forall2 (fun j x => lget l j = Ok x) p r.
Proof. exact (slice_items l r s). Qed.
Print Assumptions C49_slice_items.
Example C49_positions_ex : slice_positions 10 (mkSlice (Some (-2)) (Some 1) (Some (-3))) = Ok [8; 5; 2] /\ lslice [5; 6; 7; 8] (mkSlice None None (Some (-1))) = Ok [8; 7; 6; 5].
Proof. vm_compute. split; reflexivity. Qed.
(** [l[:]] is the list, [l[::-1]] the list from its end, and [l[a:b:0]] and [del l[a:b:0]] raise ValueError. *)
Theorem C49_slice_whole (l : list pv) : lslice l (mkSlice None None None) = Ok l.
Proof. exact (slice_whole l). Qed.
Print Assumptions C49_slice_whole.
Theorem C49_slice_reverse (l : list pv) : lslice l (mkSlice None None (Some (-1))) = Ok (rev l).
Proof. exact (slice_reverse l). Qed.
Print Assumptions C49_slice_reverse.
Theorem C49_slice_no_step (l : list pv) a b : lslice l (mkSlice a b (Some 0)) = Err EValue /\ lslice_cut l (mkSlice a b (Some 0)) = Err EValue.
Proof. exact (slice_no_step l a b). Qed.
Print Assumptions C49_slice_no_step.
Example C49_slice_whole_ex : let l := [PInt 5; PInt 6; PInt 7] in lslice l (mkSlice None None None) = Ok l /\ lslice l (mkSlice None None (Some (-1))) = Ok [PInt 7; PInt 6; PInt 5] /\
  lslice l (mkSlice (Some 1) None (Some 0)) = Err EValue /\ lslice_cut l (mkSlice None (Some 1) (Some 0)) = Err EValue.
Proof. vm_compute. repeat split. Qed.

(** ** Where the attributes are not lists. *)
(** Components that are missing are not an empty list: KeyError, and the grain stays as it is. *)
Theorem C49_no_components op o d : holder Comps o = Ok d -> dget $"components" d = None -> op <> LExtend [] -> do_op Comps op o = (o, Err EKey).
Proof. exact (no_components op o d). Qed.
Print Assumptions C49_no_components.
Example C49_no_components_ex : exists d, holder Comps (store Comps None ex_video) = Ok d /\ dget $"components" d = None /\
  snd (do_ops Comps [LGet 0; LLen; LClear; LItems; LExtend []] (store Comps None ex_video)) = [Err EKey; Err EKey; Err EKey; Err EKey; Ok PNone].
Proof. vm_compute. eexists. repeat split. Qed.
(** [g.timelabels = g.timelabels] and [g.timelabels += vs] leave no labels. *)
Theorem C49_assign_self_refuted o l fuel : shows_list Labels o l -> exists o', set_labels_self (S fuel) o = (o', Ok PNone) /\ shows_list Labels o' [].
Proof. exact (assign_self o l fuel). Qed.
Print Assumptions C49_assign_self_refuted.
Theorem C49_add_refuted o l vs fuel : shows_list Labels o l -> Forall (storable Labels) vs -> exists o', add_labels (S fuel) vs o = (o', Ok PNone) /\ shows_list Labels o' [].
Proof. exact (add_erases o l vs fuel). Qed.
Print Assumptions C49_add_refuted.
(** [g.timelabels.extend(g.timelabels)] does not end, whatever the number of steps. *)
Theorem C49_extend_self_refuted fuel o l i : shows_list Labels o l -> 0 <= i < zlen l -> exists o', copy_loop fuel i o = (o', Err EFuel).
Proof. exact (extend_loops fuel o l i). Qed.
Print Assumptions C49_extend_self_refuted.
Example C49_self_ex : labels (fst (set_labels_self 5 (ex_labelled [1; 2]))) = Ok [] /\ labels (fst (add_labels 5 [ex_label 3] (ex_labelled [1; 2]))) = Ok [] /\
  snd (extend_self 40 (ex_labelled [1])) = Err EFuel.
Proof. vm_compute. repeat split. Qed.
(** Slices of a list that is not there, and assignment to slices of time labels and components. *)
Example C49_slice_refuted : snd (do_op Labels (LGetSlice (mkSlice None None None)) ex_coded) = Err EIndex /\ lslice (@nil pv) (mkSlice None None None) = Ok [] /\
  snd (do_op Labels (LSetSlice (mkSlice None None None) []) (ex_labelled [1])) = Err EType /\ lslice_put [PInt 1] (mkSlice None None None) [] = Ok [] /\
  (let '(o, r) := do_op Comps (LSetSlice (mkSlice None None None) [PInt 1]) ex_video in r = Err ERuntime /\ rbind (raw Comps o) (fun l => Ok (match l with Some (x :: _) => x | _ => PNone end)) = Ok (PInt 1)).
Proof. vm_compute. repeat split. Qed.
