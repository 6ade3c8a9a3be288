(** What the operators of byte strings mean, deferred or not. *)
From Verif Require Import Base PyValue IoBytes IoBytesSpec DeferOps.

(** The objects that can be loaded. *)
Definition loadable (h : store) : Prop := Forall (fun x => 0 <= io_start x /\ 0 <= io_length x) h.
Definition there (h : store) (a : operand) : Prop := match a with Plain _ => True | Defer i => (i < List.length h)%nat end.

(** The bytes an operand stands for: those it has loaded, or those that are in the stream. *)
Definition stands (h : store) (a : operand) : bytes :=
  match a with
  | Plain b => b
  | Defer i =>
      match nth_error h i with
      | Some x => match io_object x with Some d => d | None => region (io_data x) (io_start x) (io_length x) end
      | None => []
      end
  end.

(** [x] comes before [y]: it is a beginning of [y], or smaller where they first differ. *)
Definition before (x y : bytes) : Prop :=
  (exists c t, y = x ++ c :: t) \/ (exists p c d s t, x = p ++ c :: s /\ y = p ++ d :: t /\ c < d).
Definition meaning (o : cmpop) (x y : bytes) : Prop :=
  match o with
  | CEq => x = y
  | CNe => x <> y
  | CLt => before x y
  | CLe => before x y \/ x = y
  | CGt => before y x
  | CGe => before y x \/ x = y
  end.
Definition says (r : res bool) (P : Prop) : Prop := exists v, r = Ok v /\ (v = true <-> P).

(** Nothing that can be seen has changed: what the objects stand for, and the streams. *)
Definition unseen (h h' : store) : Prop :=
  (forall a, stands h' a = stands h a) /\ map (fun x => (io_data x, io_pos x)) h' = map (fun x => (io_data x, io_pos x)) h.

Definition plain (a : operand) : Prop := match a with Plain _ => True | Defer _ => False end.
(** The payloads of grains. *)
Definition held (h : store) (d : option operand) : option bytes := match d with Some a => Some (stands h a) | None => None end.
Definition held_there (h : store) (d : option operand) : Prop := match d with Some a => there h a | None => True end.
Definition deferred (d : option operand) : Prop := match d with Some (Defer _) => True | _ => False end.
Definition same_meta (g g' : dgrain) : Prop := py_eq (PDict (dg_meta g')) (PDict (dg_meta g)) = true.
