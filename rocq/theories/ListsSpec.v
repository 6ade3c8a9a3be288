(** What the list-like attributes should do: what an ordinary list does. *)
From Coq Require Import String.
From Verif Require Import Base PyValue PyList ListSpec GrainObj Lists.
Local Open Scope list_scope.

(** The first element equal to v is the one at i. *)
Definition first_equal (v : pv) (l a : list pv) (x : pv) (b : list pv) : Prop := l = a ++ x :: b /\ py_eq x v = true /\ Forall (fun y => py_eq y v = false) a.
Definition none_equal (v : pv) (l : list pv) : Prop := Forall (fun y => py_eq y v = false) l.
Definition as_value (r : res (list pv)) : res pv := match r with Ok l => Ok (PList l) | Err e => Err e end.
Definition outcome (l : list pv) (r : res (list pv)) : list pv * res pv := match r with Ok l' => (l', Ok PNone) | Err e => (l, Err e) end.

(** An operation on a list: the list before, the list after and the outcome. [norm k v] is the form in which v is stored. *)
Inductive list_does (k : lkind) : lop -> list pv -> list pv -> res pv -> Prop :=
| ld_get i l a x b : at_index l i a x b -> list_does k (LGet i) l l (Ok x)
| ld_get_none i l : no_index l i -> list_does k (LGet i) l l (Err EIndex)
| ld_get_slice s l : list_does k (LGetSlice s) l l (as_value (lslice l s))
| ld_set i v w l a x b : norm k v = Ok w -> at_index l i a x b -> list_does k (LSet i v) l (a ++ w :: b) (Ok PNone)
| ld_set_none i v l : no_index l i -> list_does k (LSet i v) l l (Err EIndex)
| ld_set_slice s vs l l' r : outcome l (lslice_put l s vs) = (l', r) -> list_does k (LSetSlice s vs) l l' r
| ld_del i l a x b : at_index l i a x b -> list_does k (LDel i) l (a ++ b) (Ok PNone)
| ld_del_none i l : no_index l i -> list_does k (LDel i) l l (Err EIndex)
| ld_del_slice s l l' r : outcome l (lslice_cut l s) = (l', r) -> list_does k (LDelSlice s) l l' r
| ld_insert i v w l a b : norm k v = Ok w -> between l i a b -> list_does k (LInsert i v) l (a ++ w :: b) (Ok PNone)
| ld_len l : list_does k LLen l l (Ok (PInt (zlen l)))
| ld_append v w l : norm k v = Ok w -> list_does k (LAppend v) l (l ++ [w]) (Ok PNone)
| ld_pop i l a x b : at_index l i a x b -> list_does k (LPop i) l (a ++ b) (Ok x)
| ld_pop_none i l : no_index l i -> list_does k (LPop i) l l (Err EIndex)
| ld_extend vs ws l : Forall2 (fun v w => norm k v = Ok w) vs ws -> list_does k (LExtend vs) l (l ++ ws) (Ok PNone)
| ld_clear l : list_does k LClear l [] (Ok PNone)
| ld_reverse l : list_does k LReverse l (rev l) (Ok PNone)
| ld_items l : list_does k LItems l l (Ok (PList l))
| ld_index v l a x b : first_equal v l a x b -> list_does k (LIndex v) l l (Ok (PInt (zlen a)))
| ld_index_none v l : none_equal v l -> list_does k (LIndex v) l l (Err EValue)
| ld_remove v l a x b : first_equal v l a x b -> list_does k (LRemove v) l (a ++ b) (Ok PNone)
| ld_remove_none v l : none_equal v l -> list_does k (LRemove v) l l (Err EValue)
| ld_count v l : list_does k (LCount v) l l (Ok (PInt (zlen (filter (fun w => py_eq w v) l))))
| ld_contains v l : list_does k (LContains v) l l (Ok (PBool (existsb (fun w => py_eq w v) l))).

(** Where they do something else: slices of a missing list, and assignment to slices. *)
Inductive deviates : lkind -> lop -> list pv -> list pv -> res pv -> Prop :=
| dev_get k s : k <> Comps -> deviates k (LGetSlice s) [] [] (Err EIndex)
| dev_del k s : k <> Comps -> deviates k (LDelSlice s) [] [] (Err EIndex)
| dev_set k s vs : k <> Comps -> deviates k (LSetSlice s vs) [] [] (Err EIndex)
| dev_labels s vs l : deviates Labels (LSetSlice s vs) l l (Err EType)
| dev_comps s vs l l' p r : slice_positions (zlen l) s = Ok p -> zlen p <> zlen vs -> zlen l' = zlen l -> deviates Comps (LSetSlice s vs) l l' r.
Inductive steps (k : lkind) : list lop -> list pv -> list pv -> list (res pv) -> Prop :=
| steps_nil l : steps k [] l l []
| steps_cons op ops l l1 l2 r rs : list_does k op l l1 r \/ deviates k op l l1 r -> steps k ops l1 l2 rs -> steps k (op :: ops) l l2 (r :: rs).
(** No slices. *)
Definition by_index (op : lop) : Prop := match op with LGetSlice _ | LSetSlice _ _ | LDelSlice _ => False | _ => True end.
Inductive list_steps (k : lkind) : list lop -> list pv -> list pv -> list (res pv) -> Prop :=
| ls_nil l : list_steps k [] l l []
| ls_cons op ops l l1 l2 r rs : list_does k op l l1 r -> list_steps k ops l1 l2 rs -> list_steps k (op :: ops) l l2 (r :: rs).

(** The values given can be stored. *)
Definition storable (k : lkind) (v : pv) : Prop := exists w, norm k v = Ok w.
Definition lop_ok (k : lkind) (op : lop) : Prop :=
  match op with LSet _ v | LInsert _ v | LAppend v => storable k v | LExtend vs => Forall (storable k) vs | _ => True end.

(** The grain's list is l. *)
Definition shows_list (k : lkind) (o : gobj) (l : list pv) : Prop :=
  exists d s, holder k o = Ok d /\ NoDup (map fst d) /\ dget (list_key k) d = option_map PList s /\ (k = Comps -> s <> None) /\
    Forall2 (fun v w => norm k v = Ok w) (match s with Some s => s | None => [] end) l.
(** The rest of the grain is as before. *)
Definition top_name (k : lkind) : str := match section k with Some s => s | None => list_key k end.
Definition same_but_list (k : lkind) (o o' : gobj) : Prop :=
  o_class o' = o_class o /\ o_data o' = o_data o /\ o_wait o' = o_wait o /\
  (forall f, f <> $"grain" -> dget f (o_meta o') = dget f (o_meta o)) /\
  (forall f, f <> top_name k -> field f o' = field f o) /\
  (forall d d', holder k o = Ok d -> holder k o' = Ok d' -> forall f, f <> list_key k -> dget f d' = dget f d).
