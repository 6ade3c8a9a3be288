(** Grains and histories for the examples in PropsLists.v. *)
From Coq Require Import String.
From Verif Require Import Base PyValue PyList GrainObj Lists BuildExample.
Local Open Scope list_scope.

Definition ex_or (r : res gobj) : gobj := match r with Ok o => o | Err _ => mkO KGrain [] None None end.
Definition ex_coded : gobj := ex_or (kw_coded_video 5 ex_full_kw 0x0200 16 16 None None None None None 0 (Some [0; 10; 20]) ANone).
Definition ex_video : gobj := ex_or (kw_video 5 ex_full_kw 0x0801 16 2 0 ANone).
(** A label with only a tag. *)
Definition ex_label (n : Z) : pv := PDict [($"tag", PInt n)].
Definition ex_filled (n : Z) : pv :=
  PDict [($"tag", PInt n); ($"timelabel", PDict [($"frames_since_midnight", PInt 0); ($"frame_rate_numerator", PInt 0); ($"frame_rate_denominator", PInt 1); ($"drop_frame", PBool false)])].
Definition ex_labelled (l : list Z) : gobj := fst (do_ops Labels [LExtend (map ex_label l)] ex_coded).
Definition ex_offset_ops : list lop :=
  [LReverse; LAppend (PInt 30); LGetSlice (mkSlice None None (Some (-2))); LSetSlice (mkSlice (Some 1) (Some 3) None) [PInt 7]; LItems; LRemove (PInt 20); LIndex (PInt 99);
   LDelSlice (mkSlice None None None); LLen; LGetSlice (mkSlice None None None); LPop (-1); LInsert 5 (PInt 1); LItems].
Definition ex_label_ops : list lop := [LLen; LGet 0; LAppend (ex_label 1); LInsert 0 (ex_label 2); LReverse; LCount (ex_filled 1); LSet (-1) (ex_label 3); LClear; LContains (ex_filled 1); LClear; LItems].
