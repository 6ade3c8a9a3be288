(** Copying grains: Grain.__copy__ and Grain.__deepcopy__, /repo/mediagrains/grains/Grain.py 368-372. *)
From Coq Require Import String.
From Verif Require Import Base PyValue GrainObj GrainSet.
Local Open Scope list_scope.

(** [GrainFactory(meta, self.data)] with the metadata of the grain itself: whether meta and data are copies is not seen here. An
    awaitable is not passed on. *)
Definition arg_of_data (d : option bytes) : darg := match d with Some b => ABytes b | None => ANone end.
Definition copy_obj (now : Z) (o : gobj) : res gobj := rbind (get_data o) (fun d => GrainFactory now (o_meta o) (arg_of_data d)).

(** ** What is shared. The objects in memory: the dictionaries [meta['grain']], with all that is in them, and the payloads that
    can be changed in place. [copy(self.meta)] is a new outer dictionary with the same inner one. *)
Record handle := mkH { h_class : gclass; h_outer : dict; h_cell : nat; h_load : option nat; h_wait : option Z }.
Record memory := mkMem { m_dicts : list dict; m_loads : list bytes; m_grains : list handle }.
Definition cell (k : nat) (s : memory) : dict := nth k (m_dicts s) [].
Definition load (k : nat) (s : memory) : bytes := nth k (m_loads s) [].
(** A grain as its attributes see it. *)
Definition view (s : memory) (h : handle) : gobj :=
  mkO (h_class h) (dset $"grain" (PDict (cell (h_cell h) s)) (h_outer h)) (option_map (fun k => load k s) (h_load h)) (h_wait h).
Fixpoint put_at {A} (k : nat) (x : A) (l : list A) : list A :=
  match l, k with [], _ => [] | _ :: l, O => x :: l | y :: l, S k => y :: put_at k x l end.
Definition inner (m : dict) : dict := match dget $"grain" m with Some (PDict g) => g | _ => [] end.

(** What is done with the i-th grain. [OPoke]: [grain.data[k] = b], a bytearray. *)
Inductive cop := OSet (i : nat) (name : str) (v : pv) | OData (i : nat) (a : darg) | OPoke (i k : nat) (b : Z) | OCopy (i : nat) (now : Z) | ODeep (i : nat) (now : Z).
(** The grain made of dictionaries and a payload already in memory: its __init__ writes to the dictionary in place. [given] is the
    payload passed on; a class that finds none makes an empty one. *)
Definition add_grain (o : gobj) (c : nat) (given : option nat) (s : memory) : memory :=
  let s := mkMem (put_at c (inner (o_meta o)) (m_dicts s)) (m_loads s) (m_grains s) in
  match o_data o, given with
  | Some _, Some k => mkMem (m_dicts s) (m_loads s) (m_grains s ++ [mkH (o_class o) (o_meta o) c (Some k) (o_wait o)])
  | Some b, None => mkMem (m_dicts s) (m_loads s ++ [b]) (m_grains s ++ [mkH (o_class o) (o_meta o) c (Some (List.length (m_loads s))) (o_wait o)])
  | None, _ => mkMem (m_dicts s) (m_loads s) (m_grains s ++ [mkH (o_class o) (o_meta o) c None (o_wait o)])
  end.
Definition no_grain : handle := mkH KGrain [] 0 None None.
Definition do_cop (op : cop) (s : memory) : memory * res unit :=
  match op with
  | OSet i n v =>
      let h := nth i (m_grains s) no_grain in
      match set_attr n v (view s h) with
      | Ok o => (mkMem (put_at (h_cell h) (inner (o_meta o)) (m_dicts s)) (m_loads s) (m_grains s), Ok tt)
      | Err e => (s, Err e)
      end
  | OData i a =>
      let h := nth i (m_grains s) no_grain in
      match set_data a (view s h) with
      | Ok o =>
          match o_data o with
          | Some b => (mkMem (put_at (h_cell h) (inner (o_meta o)) (m_dicts s)) (m_loads s ++ [b]) (put_at i (mkH (h_class h) (h_outer h) (h_cell h) (Some (List.length (m_loads s))) (o_wait o)) (m_grains s)), Ok tt)
          | None => (mkMem (put_at (h_cell h) (inner (o_meta o)) (m_dicts s)) (m_loads s) (put_at i (mkH (h_class h) (h_outer h) (h_cell h) None (o_wait o)) (m_grains s)), Ok tt)
          end
      | Err e => (s, Err e)
      end
  | OPoke i k b =>
      let h := nth i (m_grains s) no_grain in
      match h_load h with
      | Some l => if (k <? List.length (load l s))%nat then (mkMem (m_dicts s) (put_at l (put_at k b (load l s)) (m_loads s)) (m_grains s), Ok tt) else (s, Err EIndex)
      | None => (s, Err EType)
      end
  | OCopy i now =>
      let h := nth i (m_grains s) no_grain in
      match copy_obj now (view s h) with
      | Ok o => (add_grain o (h_cell h) (h_load h) s, Ok tt)
      | Err e => (s, Err e)
      end
  | ODeep i now =>
      let h := nth i (m_grains s) no_grain in
      match copy_obj now (view s h) with
      | Ok o => (add_grain o (List.length (m_dicts s)) None (mkMem (m_dicts s ++ [[]]) (m_loads s) (m_grains s)), Ok tt)
      | Err e => (s, Err e)
      end
  end.
Fixpoint do_cops (ops : list cop) (s : memory) : memory * list (res unit) :=
  match ops with [] => (s, []) | op :: ops => let '(s, r) := do_cop op s in let '(s, rs) := do_cops ops s in (s, r :: rs) end.
(** One grain, alone in memory. *)
Definition alone (o : gobj) : memory :=
  match o_data o with
  | Some b => mkMem [inner (o_meta o)] [b] [mkH (o_class o) (o_meta o) 0 (Some 0%nat) (o_wait o)]
  | None => mkMem [inner (o_meta o)] [] [mkH (o_class o) (o_meta o) 0 None (o_wait o)]
  end.
Definition views (s : memory) : list gobj := map (view s) (m_grains s).
