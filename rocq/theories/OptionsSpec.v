(** What options of comparisons should mean. *)
From Coq Require Import String.
From Verif Require Import Base PyValue GrainObj Compare CompareSpec Options.
Local Open Scope list_scope.

(** What one can ask for: to ignore an attribute, to look at the creation time, differences, and quality by component. *)
Inductive want := Ignore (n : str) | Regard (n : str) | Differ (n : str) (c : cmp) (z : Z) | Quality (c : cmp) (limits : list (option Z)).
Definition relation (c : cmp) (x y : Z) : Prop := match c with Lt => x < y | Le => x <= y | Gt => x > y | Ge => x >= y | Eq => x = y | Ne => x <> y end.
Definition plain_name (n : str) : Prop := n <> $"path" /\ forall r, n <> 95 :: 95 :: r.
(** How it is written. *)
Inductive written : want -> oexp -> Prop :=
| w_ignore n : plain_name n -> written (Ignore n) (XAttr (XName NExclude) n)
| w_only_metadata : written (Ignore $"data") (XName NOnlyMetadata)
| w_regard n : plain_name n -> written (Regard n) (XAttr (XName NInclude) n)
| w_differ n c z : plain_name n -> written (Differ n c z) (XCmp c (XAttr (XName NExpected) n) (XNum z))
| w_differ_left n c d z : plain_name n -> (forall x y, relation d x y <-> relation c y x) -> written (Differ n c z) (XCmp d (XNum z) (XAttr (XName NExpected) n))
| w_quality c l : c <> Eq -> c <> Ne -> written (Quality c l) (XCmp c (XAttr (XName NPsnr) $"data") (XNums l))
| w_quality_left c d l : c <> Eq -> c <> Ne -> (forall x y, relation d x y <-> relation c y x) -> written (Quality c l) (XCmp d (XNums l) (XAttr (XName NPsnr) $"data")).

(** The meaning of a list of them. *)
Definition as_wanted (ws : list want) (n : str) (d : Z) : Prop :=
  (forall c z, In (Differ n c z) ws -> relation c d z) /\ ((forall c z, ~ In (Differ n c z) ws) -> d = 0).
Definition ignored (ws : list want) (n : str) : Prop := exists m, In (Ignore m) ws /\ (m = n \/ other_name (path n) (path m)).
Definition good_enough (ws : list want) (x : list Z) : Prop :=
  forall c limits, In (Quality c limits) ws -> forall i v l, nth_error x i = Some v -> nth_error limits i = Some (Some l) -> relation c v l.
(** Options that mean this. *)
Record mean (cs : list copt) (ws : list want) : Prop := {
  m_ignored : forall n, waived cs (path n) <-> ignored ws n;
  m_others : forall id, (forall n, id <> path n) -> ~ waived cs id;
  m_regard : forall n, In (OInclude (path n)) cs <-> In (Regard n) ws;
  m_expected : forall n d, expected cs (path n) d <-> as_wanted ws n d;
  m_asked : (exists m, In (OPsnr (path $"data") m) cs) <-> exists c l, In (Quality c l) ws;
  m_quality : forall x, (forall m, In (OPsnr (path $"data") m) cs -> m x = true) <-> good_enough ws x }.
