(** The Python values that occur in grain metadata (/repo/mediagrains/typing.py 20-200), their equality and the operations
    of dictionaries. Keys are strings. Floats and other objects are not modelled. The text of a UUID or a timestamp has a
    constructor of its own, so that reading it back is not a matter of parsing: [PStr] stands for all other strings. *)
From Verif Require Import Base.

Inductive pv :=
| PNone
| PBool (b : bool)
| PInt (z : Z)
| PFrac (n d : Z)            (* Fraction: lowest terms, d > 0 *)
| PStr (s : str)
| PUuid (u : Z)              (* UUID object *)
| PUuidStr (u : Z)           (* str(UUID) *)
| PTime (t : Z)              (* Timestamp or TimeOffset object, in nanoseconds *)
| PTimeStr (t : Z)           (* its "seconds:nanoseconds" text *)
| PList (l : list pv)
| PDict (d : list (str * pv)).

Notation dict := (list (str * pv)).

(** [k in d], [d.get(k)]. *)
Fixpoint dget {A} (k : str) (d : list (str * A)) : option A :=
  match d with [] => None | (k', v) :: d => if zlist_eqb k k' then Some v else dget k d end.
Definition dhas {A} (k : str) (d : list (str * A)) : bool := match dget k d with Some _ => true | None => false end.
(** [d[k]]. *)
Definition ditem {A} (k : str) (d : list (str * A)) : res A := match dget k d with Some v => Ok v | None => Err EKey end.
(** [d[k] = v]: in place if the key is there, else at the end. *)
Fixpoint dset {A} (k : str) (v : A) (d : list (str * A)) : list (str * A) :=
  match d with [] => [(k, v)] | (k', w) :: d => if zlist_eqb k k' then (k', v) :: d else (k', w) :: dset k v d end.
(** [del d[k]] when the key is there. *)
Fixpoint ddel {A} (k : str) (d : list (str * A)) : list (str * A) :=
  match d with [] => [] | (k', w) :: d => if zlist_eqb k k' then d else (k', w) :: ddel k d end.
(** [if k not in d: d[k] = v]. *)
Definition ddefault {A} (k : str) (v : A) (d : list (str * A)) : list (str * A) := if dhas k d then d else dset k v d.

(** The numbers among the values: bool is a subclass of int. *)
Definition as_q (v : pv) : option (Z * Z) :=
  match v with PBool b => Some (Z.b2z b, 1) | PInt z => Some (z, 1) | PFrac n d => Some (n, d) | _ => None end.

(** [a == b]. *)
Fixpoint py_eq (a b : pv) {struct a} : bool :=
  match a, b with
  | PNone, PNone => true
  | PStr s, PStr t => zlist_eqb s t
  | PUuid s, PUuid t => s =? t
  | PUuidStr s, PUuidStr t => s =? t
  | PTime s, PTime t => s =? t
  | PTimeStr s, PTimeStr t => s =? t
  | PList l, PList m =>
      (fix go l m := match l, m with [], [] => true | x :: l, y :: m => py_eq x y && go l m | _, _ => false end) l m
  | PDict d, PDict e =>
      (length d =? length e)%nat &&
      (fix go d := match d with [] => true | (k, v) :: d => match dget k e with Some w => py_eq v w | None => false end && go d end) d
  | _, _ => match as_q a, as_q b with Some (n, d), Some (m, e) => (n =? m) && (d =? e) | _, _ => false end
  end.

(** [Fraction(x, y)] for two rationals. *)
Definition frac (n d : Z) : res pv :=
  if d =? 0 then Err EZeroDiv
  else let g := Z.gcd n d in let s := Z.sgn d in Ok (PFrac (s * n / g) (s * d / g)).
Definition mk_frac (x y : pv) : res pv :=
  match as_q x, as_q y with Some (n, d), Some (m, e) => frac (n * e) (d * m) | _, _ => Err EType end.

(** [int(v)]; numerals in strings are not modelled (they count as other strings). *)
Definition to_int (v : pv) : res Z :=
  match v with
  | PBool b => Ok (Z.b2z b) | PInt z => Ok z | PFrac n d => Ok (Z.quot n d)
  | PStr _ | PUuidStr _ | PTimeStr _ => Err EValue
  | _ => Err EType
  end.
(** [bool(v)] for the values it is used on. *)
Definition truthy (v : pv) : bool :=
  match v with
  | PNone => false | PBool b => b | PInt z => negb (z =? 0) | PFrac n _ => negb (n =? 0) | PStr s => negb (zlist_eqb s [])
  | PList l => match l with [] => false | _ => true end | PDict d => match d with [] => false | _ => true end | _ => true
  end.
(** [len(v)] for the containers. *)
Definition py_len (v : pv) : res Z :=
  match v with PList l => Ok (zlen l) | PDict d => Ok (zlen d) | PStr s => Ok (zlen s) | _ => Err EType end.
(** [v[k]] with a string key, [k in v]. *)
Definition sub (k : str) (v : pv) : res pv := match v with PDict d => ditem k d | _ => Err EType end.
Definition as_dict (v : pv) : res dict := match v with PDict d => Ok d | _ => Err EType end.
Definition as_list (v : pv) : res (list pv) := match v with PList l => Ok l | _ => Err EType end.
(** The objects for which [isinstance(v, str)]. *)
Definition is_text (v : pv) : bool := match v with PStr _ | PUuidStr _ | PTimeStr _ => true | _ => false end.
(** Dictionaries have each key once. *)
Inductive pv_ok : pv -> Prop :=
| ok_none : pv_ok PNone | ok_bool : forall b, pv_ok (PBool b) | ok_int : forall z, pv_ok (PInt z)
| ok_frac : forall n d, 0 < d -> Z.gcd n d = 1 -> pv_ok (PFrac n d)
| ok_str : forall s, pv_ok (PStr s) | ok_uuid : forall u, pv_ok (PUuid u) | ok_uuids : forall u, pv_ok (PUuidStr u)
| ok_time : forall t, pv_ok (PTime t) | ok_times : forall t, pv_ok (PTimeStr t)
| ok_list : forall l, Forall pv_ok l -> pv_ok (PList l)
| ok_dict : forall d, NoDup (map fst d) -> Forall (fun kv => pv_ok (snd kv)) d -> pv_ok (PDict d).
