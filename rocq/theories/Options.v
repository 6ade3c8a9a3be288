(** The expressions with which the options of comparisons are written: /repo/mediagrains/comparison/options.py, as Python evaluates
    them, and how ComparisonResult takes what they give (_internal.py 129-147, 393, 433).

    Numbers stand for differences (nanoseconds or counts), and for values of PSNR, which only their order matters of; NaN is not
    modelled. Attributes whose names start with two underscores, comparisons of other operands than those below and the texts of
    options are not modelled ([EUnsupported]). *)
From Coq Require Import String.
From Verif Require Import Base PyValue GrainObj Compare.
Local Open Scope list_scope.

Inductive cmp := Lt | Le | Gt | Ge | Eq | Ne.
(** What an option asks of a difference. [MNone]: the matcher of [&] and [|], 96-97 and 108-109, which calls [self.matcher], itself an
    _ExpectedDifference by 111-114: a TypeError. *)
Inductive matcher := MCmp (c : cmp) (z : Z) | MNone.
(** The options, 166-207; of PSNR 117-163, with the limits for the components. *)
Inductive popt :=
| PExclude (p : str) | PInclude (p : str) | PExpect (p : str) (m : matcher) | PPsnr (p : str) (c : cmp) (limits : list (option Z)).
Inductive oval :=
| VExclude | VInclude | VExpect (p : str) | VPsnr (p : str) | VOption (o : popt) | VNum (z : Z) | VNums (l : list (option Z)) | VText (s : str) | VBool (b : bool).

Inductive oname := NExclude | NInclude | NExpected | NPsnr | NOnlyMetadata.
Inductive oexp :=
| XName (n : oname)
| XNum (z : Z)
| XNums (l : list (option Z))
| XAttr (e : oexp) (name : str)
| XItem (e : oexp) (i : Z)
| XCmp (c : cmp) (e f : oexp)
| XChain (e : oexp) (c : cmp) (f : oexp) (d : cmp) (g : oexp)
| XBitAnd (e f : oexp) | XBitOr (e f : oexp)
| XAnd (e f : oexp) | XOr (e f : oexp) | XNot (e : oexp).

(** 210-222. *)
Definition named (n : oname) : oval :=
  match n with
  | NExclude => VExclude | NInclude => VInclude | NExpected => VExpect $"{}" | NPsnr => VPsnr $"{}" | NOnlyMetadata => VOption (PExclude (path $"data"))
  end.
(** Attributes, 46-53, 111-114, 160-163; [path] is an attribute of the object itself. *)
Definition dunder (name : str) : bool := match name with c :: d :: _ => (c =? 95) && (d =? 95) | _ => false end.
Definition attribute (v : oval) (name : str) : res oval :=
  if dunder name then Err EUnsupported else
  match v with
  | VExclude => Ok (VOption (PExclude (path name)))
  | VInclude => Ok (VOption (PInclude (path name)))
  | VExpect p => if zlist_eqb name $"path" then Ok (VText p) else Ok (VExpect (p ++ $"." ++ name))
  | VPsnr p => if zlist_eqb name $"path" then Ok (VText p) else Ok (VPsnr (p ++ $"." ++ name))
  | VOption o => if zlist_eqb name $"path" then Ok (VText (match o with PExclude p | PInclude p | PExpect p _ | PPsnr p _ _ => p end))
                 else match o with
                      | PExpect _ _ | PPsnr _ _ _ => if existsb (zlist_eqb name) [$"matcher"; $"_repr"] then Err EUnsupported else Err EAttr
                      | _ => Err EAttr end
  | VNum _ | VNums _ | VText _ | VBool _ => Err EUnsupported
  end.
(** Comparisons, 63-85, 124-158, 178-179 and 186-187 with 170-171. A number on the left asks the other operand with the order reversed. *)
Definition reversed (c : cmp) : cmp := match c with Lt => Gt | Le => Ge | Gt => Lt | Ge => Le | c => c end.
Definition compared (c : cmp) (v w : oval) : res oval :=
  match v, w with
  | VExpect p, VNum z => Ok (VOption (PExpect p (MCmp c z)))
  | VNum z, VExpect p => Ok (VOption (PExpect p (MCmp (reversed c) z)))
  | VPsnr p, VNums l => match c with Eq => Ok (VBool false) | Ne => Ok (VBool true) | c => Ok (VOption (PPsnr p c l)) end
  | VNums l, VPsnr p => match c with Eq => Ok (VBool false) | Ne => Ok (VBool true) | c => Ok (VOption (PPsnr p (reversed c) l)) end
  | VOption (PExclude p), VOption (PExclude q) | VOption (PInclude p), VOption (PInclude q) =>
      match c with Eq => Ok (VBool (zlist_eqb p q)) | Ne => Ok (VBool (negb (zlist_eqb p q))) | _ => Err EType end
  | VOption (PExclude _), VOption (PInclude _) | VOption (PInclude _), VOption (PExclude _) =>
      match c with Eq => Ok (VBool false) | Ne => Ok (VBool true) | _ => Err EType end
  | _, _ => Err EUnsupported
  end.
(** [&] and [|], 87-109. Only _ExpectedDifference has them, the options that its comparisons give do not. *)
Definition combined (v w : oval) : res oval :=
  match v with
  | VExpect p => match w with
                 | VOption (PExpect q _) => if zlist_eqb q p then Ok (VOption (PExpect p MNone)) else Err EValue
                 | _ => Err EValue end
  | VNum _ | VBool _ => match w with VNum _ | VBool _ => Err EUnsupported | _ => Err EType end
  | _ => Err EType
  end.
(** Truth: nothing here has __bool__ or __len__ but numbers, texts and lists. *)
Definition truth (v : oval) : bool :=
  match v with VNum z => negb (z =? 0) | VNums [] | VText [] => false | VBool b => b | _ => true end.

Fixpoint eval (e : oexp) : res oval :=
  match e with
  | XName n => Ok (named n)
  | XNum z => Ok (VNum z)
  | XNums l => Ok (VNums l)
  | XAttr e name => rbind (eval e) (fun v => attribute v name)
  | XItem e _ => rbind (eval e) (fun v => match v with VNums _ | VText _ => Err EUnsupported | _ => Err EType end)
  | XCmp c e f => rbind (eval e) (fun v => rbind (eval f) (fun w => compared c v w))
  | XChain e c f d g =>
      rbind (eval e) (fun v => rbind (eval f) (fun w => rbind (compared c v w) (fun r =>
      if truth r then rbind (eval g) (fun u => compared d w u) else Ok r)))
  | XBitAnd e f | XBitOr e f => rbind (eval e) (fun v => rbind (eval f) (fun w => combined v w))
  | XAnd e f => rbind (eval e) (fun v => if truth v then eval f else Ok v)
  | XOr e f => rbind (eval e) (fun v => if truth v then Ok v else eval f)
  | XNot e => rbind (eval e) (fun v => Ok (VBool (negb (truth v))))
  end.

(** What matchers say. *)
Definition holds (c : cmp) (x y : Z) : bool :=
  match c with Lt => x <? y | Le => x <=? y | Gt => y <? x | Ge => y <=? x | Eq => x =? y | Ne => negb (x =? y) end.
Definition says (m : matcher) (d : Z) : res bool := match m with MCmp c z => Ok (holds c d z) | MNone => Err EType end.
(** 125-157: zip stops at the shorter one. *)
Fixpoint psnr_says (c : cmp) (limits : list (option Z)) (x : list Z) : bool :=
  match x, limits with
  | v :: x, l :: limits => match l with Some l => holds c v l && psnr_says c limits x | None => psnr_says c limits x end
  | _, _ => true
  end.

(** What an argument of compare_grain does: everything is asked for its path (147), and then only options count. Bare names have a
    path too, and do nothing. *)
Definition taken (v : oval) : res (list popt) :=
  match v with
  | VOption o => Ok [o]
  | VExclude | VInclude | VExpect _ | VPsnr _ => Ok []
  | _ => Err EAttr
  end.
Fixpoint arguments (es : list oexp) : res (list popt) :=
  match es with [] => Ok [] | e :: es => rbind (eval e) (fun v => rbind (arguments es) (fun r => rbind (taken v) (fun o => Ok (o ++ r)))) end.
(** As Compare.v has them, unless a matcher raises. *)
Definition works (o : popt) : option copt :=
  match o with
  | PExclude p => Some (OExclude p)
  | PInclude p => Some (OInclude p)
  | PExpect p (MCmp c z) => Some (OExpect p (fun d => holds c d z))
  | PExpect _ MNone => None
  | PPsnr p c l => Some (OPsnr p (psnr_says c l))
  end.
Fixpoint all_work (os : list popt) : option (list copt) :=
  match os with [] => Some [] | o :: os => match works o, all_work os with Some c, Some cs => Some (c :: cs) | _, _ => None end end.
(** compare_grain(a, b, e1, e2, ...), __init__.py 31-43. *)
Definition compare_with psnr (es : list oexp) (a b : gobj) : res cres :=
  rbind (arguments es) (fun os => match all_work os with Some cs => compare_grain psnr cs a b | None => Err EUnsupported end).
