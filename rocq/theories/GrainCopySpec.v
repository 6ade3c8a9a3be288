(** What copies should be: a grain that reads as the original; a deep copy has nothing in common with it, and a shallow copy has
    the metadata and the payload object in common. *)
From Coq Require Import String.
From Verif Require Import Base PyValue GrainObj BuildSpec GrainSet GrainSetSpec GrainCopy.
Local Open Scope list_scope.

(** Grains that are what they say they are: the type names the class, and building them again from their own metadata changes
    nothing. *)
Definition faithful (o : gobj) : Prop :=
  class_for (o_meta o) = Ok (o_class o) /\
  forall now, init (o_class o) now (o_meta o) ANone = Ok (mkO (o_class o) (o_meta o) (match o_class o with KGrain | KEvent => None | _ => Some [] end) None).
(** The payload of a copy: the same; without one, empty but for plain grains. It is never awaited. *)
Definition copied (o : gobj) : gobj :=
  mkO (o_class o) (o_meta o) (match o_data o with Some b => Some b | None => match o_class o with KGrain => None | _ => Some [] end end) None.

(** ** Grains that have things in common. *)
Record twin := mkT { t_meta : nat; t_load : nat; t_obj : gobj }.
Record family := mkF { f_twins : list twin; f_metas : nat; f_loads : nat }.
Definition nobody : twin := mkT 0 0 (mkO KGrain [] None None).
Definition on_metas (k : nat) (f : gobj -> gobj) (t : twin) : twin := if Nat.eqb (t_meta t) k then mkT (t_meta t) (t_load t) (f (t_obj t)) else t.
Definition on_loads (k : nat) (f : gobj -> gobj) (t : twin) : twin := if Nat.eqb (t_load t) k then mkT (t_meta t) (t_load t) (f (t_obj t)) else t.
Definition with_data (d : option bytes) (w : option Z) (o : gobj) : gobj := mkO (o_class o) (o_meta o) d w.
Definition assign (n : str) (v : pv) (o : gobj) : gobj := match set_attr n v o with Ok o' => o' | Err _ => o end.
Definition family_step (op : cop) (s : family) : family * res unit :=
  match op with
  | OSet i n v =>                       (* all that have the metadata in common see it *)
      let t := nth i (f_twins s) nobody in
      (mkF (map (on_metas (t_meta t) (assign n v)) (f_twins s)) (f_metas s) (f_loads s), match set_attr n v (t_obj t) with Ok _ => Ok tt | Err e => Err e end)
  | OPoke i k b =>                      (* all that have the payload in common see it *)
      let t := nth i (f_twins s) nobody in
      match o_data (t_obj t) with
      | Some d =>
          if (k <? List.length d)%nat
          then (mkF (map (on_loads (t_load t) (fun o => with_data (option_map (put_at k b) (o_data o)) (o_wait o) o)) (f_twins s)) (f_metas s) (f_loads s), Ok tt)
          else (s, Err EIndex)
      | None => (s, Err EType)
      end
  | OData i a =>                        (* a new payload, for this one only *)
      let t := nth i (f_twins s) nobody in
      (mkF (put_at i (mkT (t_meta t) (f_loads s) (match set_data a (t_obj t) with Ok o => o | Err _ => t_obj t end)) (f_twins s)) (f_metas s) (S (f_loads s)), Ok tt)
  | OCopy i _ =>
      let t := nth i (f_twins s) nobody in
      (mkF (f_twins s ++ [mkT (t_meta t) (match o_data (t_obj t) with Some _ => t_load t | None => f_loads s end) (copied (t_obj t))]) (f_metas s) (S (f_loads s)), Ok tt)
  | ODeep i _ =>
      let t := nth i (f_twins s) nobody in
      (mkF (f_twins s ++ [mkT (f_metas s) (f_loads s) (copied (t_obj t))]) (S (f_metas s)) (S (f_loads s)), Ok tt)
  end.
Fixpoint family_steps (ops : list cop) (s : family) : family * list (res unit) :=
  match ops with [] => (s, []) | op :: ops => let '(s, r) := family_step op s in let '(s, rs) := family_steps ops s in (s, r :: rs) end.
Definition one (o : gobj) : family := mkF [mkT 0 0 o] 1 1.
(** Operations on grains that are there, one after the other; the attributes assigned are those of C54 but for the type. *)
Definition cop_index (op : cop) : nat := match op with OSet i _ _ | OData i _ | OPoke i _ _ | OCopy i _ | ODeep i _ => i end.
Fixpoint cops_ok (c : gclass) (n : nat) (ops : list cop) : Prop :=
  match ops with
  | [] => True
  | op :: ops =>
      (cop_index op < n)%nat /\ match op with OSet _ a _ => a <> $"grain_type" /\ dget a (sorts c) <> None | _ => True end /\
      cops_ok c (match op with OCopy _ _ | ODeep _ _ => S n | _ => n end) ops
  end.
