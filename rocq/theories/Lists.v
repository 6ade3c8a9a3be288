(** The list-like attributes of grains: Grain.TIMELABELS (/repo/mediagrains/grains/Grain.py 530-679), CodedVideoGrain.UNITOFFSETS
    (CodedVideoGrain.py 336-407) and VideoGrain.COMPONENT_LIST (VideoGrain.py 201-246). An operation leaves a state even when
    it raises. Values are copied in: two elements do not share a dictionary. The classes inherit the other operations from
    collections.abc.MutableSequence of the Python standard library; those are modelled as they are written there. *)
From Coq Require Import String.
From Verif Require Import Base PyValue PyList GrainObj.
Local Open Scope list_scope.

Inductive lkind := Labels | Offsets | Comps.
(** The field of the grain the list is in, if it is not the grain itself, and the key there. *)
Definition section (k : lkind) : option str := match k with Labels => None | Offsets => Some $"cog_coded_frame" | Comps => Some $"cog_frame" end.
Definition list_key (k : lkind) : str := match k with Labels => $"timelabels" | Offsets => $"unit_offsets" | Comps => $"components" end.
(** [dict(TIMELABEL(v))]: an element read or stored is filled in. The others are taken as they are. *)
Definition norm (k : lkind) (v : pv) : res pv :=
  match k with Labels => rbind (as_dict v) (fun d => rbind (fill_label d) (fun d => Ok (PDict d))) | _ => Ok v end.

Definition holder (k : lkind) (o : gobj) : res dict :=
  rbind (rbind (ditem $"grain" (o_meta o)) as_dict) (fun g => match section k with None => Ok g | Some s => rbind (ditem s g) as_dict end).
Definition put_holder (k : lkind) (d : dict) (o : gobj) : gobj :=
  match rbind (ditem $"grain" (o_meta o)) as_dict with
  | Ok g => mkO (o_class o) (dset $"grain" (PDict (match section k with None => d | Some s => dset s (PDict d) g end)) (o_meta o)) (o_data o) (o_wait o)
  | Err _ => o
  end.
(** The list, or None without the key. *)
Definition raw (k : lkind) (o : gobj) : res (option (list pv)) :=
  rbind (holder k o) (fun d => match dget (list_key k) d with None => Ok None | Some v => rbind (as_list v) (fun l => Ok (Some l)) end).
Definition store (k : lkind) (l : option (list pv)) (o : gobj) : gobj :=
  match holder k o with
  | Ok d => put_holder k (match l with Some l => dset (list_key k) (PList l) d | None => ddel (list_key k) d end) o
  | Err _ => o
  end.
(** Without the key: IndexError for the first two classes, KeyError for components. *)
Definition absent (k : lkind) : err := match k with Comps => EKey | _ => EIndex end.

Definition act (A : Type) := gobj -> gobj * res A.
Definition ret {A} (a : A) : act A := fun o => (o, Ok a).
Definition fail {A} (e : err) : act A := fun o => (o, Err e).
Definition mbind {A B} (m : act A) (f : A -> act B) : act B := fun o => match m o with (o, Ok a) => f a o | (o, Err e) => (o, Err e) end.
(** The list that is there. *)
Definition with_list {A} (k : lkind) (f : list pv -> act A) : act A :=
  fun o => match raw k o with Err e => (o, Err e) | Ok None => (o, Err (absent k)) | Ok (Some l) => f l o end.
Definition put_list (k : lkind) (l : option (list pv)) : act pv := fun o => (store k l o, Ok PNone).
Definition lift {A} (r : res A) : act A := fun o => (o, r).

(** __getitem__: Grain.py 633-639, CodedVideoGrain.py 346-350, VideoGrain.py 211-216. Reading a time label fills it in. *)
Definition get_item (k : lkind) (i : Z) : act pv :=
  with_list k (fun l => mbind (lift (lget l i)) (fun v => mbind (lift (norm k v)) (fun w => mbind (lift (lput l i w)) (fun l => mbind (put_list k (Some l)) (fun _ => ret w))))).
Fixpoint get_each (k : lkind) (p : list Z) : act (list pv) :=
  match p with [] => ret [] | i :: p => mbind (get_item k i) (fun v => mbind (get_each k p) (fun r => ret (v :: r))) end.
Definition get_slice (k : lkind) (s : pslice) : act pv :=
  match k with
  | Offsets => with_list k (fun l => mbind (lift (lslice l s)) (fun r => ret (PList r)))
  | _ => with_list k (fun l => mbind (lift (slice_positions (zlen l) s)) (fun p => mbind (get_each k p) (fun r => ret (PList r))))
  end.
(** __setitem__: Grain.py 647-655, CodedVideoGrain.py 358-362, VideoGrain.py 224-230. A slice is not iterable. *)
Definition set_item (k : lkind) (i : Z) (v : pv) : act pv :=
  with_list k (fun l => mbind (lift (norm k v)) (fun w => mbind (lift (lput l i w)) (fun l => put_list k (Some l)))).
(** Assigning to a slice of a list: contiguous, or one value for each position. *)
Definition put_positions (l : list pv) (p : list Z) (vs : list pv) : list pv := fold_left (fun l iv => match lput l (fst iv) (snd iv) with Ok l => l | Err _ => l end) (combine p vs) l.
Definition lslice_put (l : list pv) (s : pslice) (vs : list pv) : res (list pv) :=
  rbind (indices (zlen l) s) (fun '(a, b, step) =>
    if step =? 1 then Ok (zfirst a l ++ vs ++ zskip (Z.max a b) l)
    else let p := zrange a b step in if zlen p =? zlen vs then Ok (put_positions l p vs) else Err EValue).
Definition set_slice (k : lkind) (s : pslice) (vs : list pv) : act pv :=
  with_list k (fun l =>
    match k with
    | Labels => fail EType
    | Offsets => mbind (lift (lslice_put l s vs)) (fun l => put_list k (Some l))
    | Comps => mbind (lift (slice_positions (zlen l) s)) (fun p =>
        mbind (put_list k (Some (put_positions l p vs))) (fun _ => if zlen vs <? zlen p then fail ERuntime (* StopIteration *) else ret PNone))
    end).
(** __delitem__: Grain.py 657-663, CodedVideoGrain.py 364-370, VideoGrain.py 232-233. *)
Definition del_with (k : lkind) (f : list pv -> res (list pv)) : act pv :=
  with_list k (fun l => mbind (lift (f l)) (fun l => put_list k (match k, l with Comps, _ => Some l | _, [] => None | _, _ => Some l end))).
Definition del_item (k : lkind) (i : Z) : act pv := del_with k (fun l => lcut l i).
Definition del_slice (k : lkind) (s : pslice) : act pv := del_with k (fun l => lslice_cut l s).
(** insert: Grain.py 665-668, CodedVideoGrain.py 372-378, VideoGrain.py 235-237. *)
Definition insert (k : lkind) (i : Z) (v : pv) : act pv := fun o =>
  match raw k o with
  | Err e => (o, Err e)
  | Ok None => match k with Comps => (o, Err EKey)
                          | _ => match norm k v with Ok w => (store k (Some (linsert [] i w)) o, Ok PNone) | Err e => (store k (Some []) o, Err e) end end
  | Ok (Some l) => match norm k v with Ok w => (store k (Some (linsert l i w)) o, Ok PNone) | Err e => (o, Err e) end
  end.
(** __len__: Grain.py 670-673, CodedVideoGrain.py 380-384, VideoGrain.py 239-240. *)
Definition len (k : lkind) : act Z := fun o =>
  match raw k o with Err e => (o, Err e) | Ok None => (o, match k with Comps => Err EKey | _ => Ok 0 end) | Ok (Some l) => (o, Ok (zlen l)) end.

(** ** collections.abc.Sequence and MutableSequence. *)
Definition append (k : lkind) (v : pv) : act pv := mbind (len k) (fun n => insert k n v).
Definition pop (k : lkind) (i : Z) : act pv := mbind (get_item k i) (fun v => mbind (del_item k i) (fun _ => ret v)).
Fixpoint extend (k : lkind) (vs : list pv) : act pv := match vs with [] => ret PNone | v :: vs => mbind (append k v) (fun _ => extend k vs) end.
(** [while True: self.pop()] until IndexError. *)
Fixpoint clear_loop (fuel : nat) (k : lkind) : act pv := fun o =>
  match fuel with
  | O => (o, Err EFuel)
  | S fuel => match pop k (-1) o with (o, Ok _) => clear_loop fuel k o | (o, Err EIndex) => (o, Ok PNone) | (o, Err e) => (o, Err e) end
  end.
Definition how_many (k : lkind) (o : gobj) : nat := match raw k o with Ok (Some l) => List.length l | _ => O end.
Definition clear (k : lkind) : act pv := fun o => clear_loop (S (how_many k o)) k o.
(** [self[i], self[n-i-1] = self[n-i-1], self[i]]. *)
Definition swap (k : lkind) (n i : Z) : act pv :=
  mbind (get_item k (n - i - 1)) (fun a => mbind (get_item k i) (fun b => mbind (set_item k i a) (fun _ => set_item k (n - i - 1) b))).
Fixpoint swaps (k : lkind) (n : Z) (is : list Z) : act pv := match is with [] => ret PNone | i :: is => mbind (swap k n i) (fun _ => swaps k n is) end.
Definition reverse (k : lkind) : act pv := mbind (len k) (fun n => swaps k n (zrange 0 (n / 2) 1)).
(** [for v in self]: items until IndexError. *)
Fixpoint iter_loop (fuel : nat) (k : lkind) (i : Z) : act (list pv) := fun o =>
  match fuel with
  | O => (o, Err EFuel)
  | S fuel => match get_item k i o with
              | (o, Ok v) => mbind (iter_loop fuel k (i + 1)) (fun r => ret (v :: r)) o
              | (o, Err EIndex) => (o, Ok [])
              | (o, Err e) => (o, Err e)
              end
  end.
Definition items (k : lkind) : act (list pv) := fun o => iter_loop (S (how_many k o)) k 0 o.
(** [index(v)]: the first equal item. *)
Fixpoint index_loop (fuel : nat) (k : lkind) (v : pv) (i : Z) : act pv := fun o =>
  match fuel with
  | O => (o, Err EFuel)
  | S fuel => match get_item k i o with
              | (o, Ok w) => if py_eq w v then (o, Ok (PInt i)) else index_loop fuel k v (i + 1) o
              | (o, Err EIndex) => (o, Err EValue)
              | (o, Err e) => (o, Err e)
              end
  end.
Definition index (k : lkind) (v : pv) : act pv := fun o => index_loop (S (how_many k o)) k v 0 o.
Definition remove (k : lkind) (v : pv) : act pv := mbind (index k v) (fun i => match i with PInt i => del_item k i | _ => fail EType end).
Definition count (k : lkind) (v : pv) : act pv := mbind (items k) (fun l => ret (PInt (zlen (filter (fun w => py_eq w v) l)))).
Definition contains (k : lkind) (v : pv) : act pv := mbind (items k) (fun l => ret (PBool (existsb (fun w => py_eq w v) l))).

Inductive lop :=
| LGet (i : Z) | LGetSlice (s : pslice) | LSet (i : Z) (v : pv) | LSetSlice (s : pslice) (vs : list pv) | LDel (i : Z) | LDelSlice (s : pslice)
| LInsert (i : Z) (v : pv) | LLen | LAppend (v : pv) | LPop (i : Z) | LExtend (vs : list pv) | LClear | LReverse | LItems | LIndex (v : pv)
| LRemove (v : pv) | LCount (v : pv) | LContains (v : pv).
Definition do_op (k : lkind) (op : lop) : act pv :=
  match op with
  | LGet i => get_item k i | LGetSlice s => get_slice k s | LSet i v => set_item k i v | LSetSlice s vs => set_slice k s vs
  | LDel i => del_item k i | LDelSlice s => del_slice k s | LInsert i v => insert k i v | LLen => mbind (len k) (fun n => ret (PInt n))
  | LAppend v => append k v | LPop i => pop k i | LExtend vs => extend k vs | LClear => clear k | LReverse => reverse k
  | LItems => mbind (items k) (fun l => ret (PList l)) | LIndex v => index k v | LRemove v => remove k v | LCount v => count k v | LContains v => contains k v
  end.
Fixpoint do_ops (k : lkind) (ops : list lop) (o : gobj) : gobj * list (res pv) :=
  match ops with [] => (o, []) | op :: ops => let '(o, x) := do_op k op o in let '(o, xs) := do_ops k ops o in (o, x :: xs) end.

(** ** The attributes themselves. *)
(** Grain.timelabels (setter), Grain.py 534-538, given a list. *)
Definition set_labels (vs : list pv) : act pv := fun o => match holder Labels o with Err e => (o, Err e) | Ok _ => extend Labels vs (store Labels (Some []) o) end.
(** Given a view of the same grain: the loop over [value] reads what it appends to. *)
Fixpoint copy_loop (fuel : nat) (i : Z) : act pv := fun o =>
  match fuel with
  | O => (o, Err EFuel)
  | S fuel => match get_item Labels i o with
              | (o, Ok v) => mbind (append Labels v) (fun _ => copy_loop fuel (i + 1)) o
              | (o, Err EIndex) => (o, Ok PNone)
              | (o, Err e) => (o, Err e)
              end
  end.
Definition set_labels_self (fuel : nat) : act pv := fun o => match holder Labels o with Err e => (o, Err e) | Ok _ => copy_loop fuel 0 (store Labels (Some []) o) end.
(** [grain.timelabels += vs]: __iadd__ extends and returns the view, which is then assigned. *)
Definition add_labels (fuel : nat) (vs : list pv) : act pv := mbind (extend Labels vs) (fun _ => set_labels_self fuel).
(** [grain.timelabels.extend(grain.timelabels)]: two views, so the test for identity does not hold. *)
Definition extend_self (fuel : nat) : act pv := copy_loop fuel 0.
(** CodedVideoGrain.unit_offsets (setter), CodedVideoGrain.py 402-407, given a list or None. *)
Definition set_offset_list (vs : option (list pv)) : act pv := fun o =>
  match holder Offsets o with
  | Err e => (o, Err e)
  | Ok d => match vs with
            | Some (v :: vs) => (store Offsets (Some (v :: vs)) o, Ok PNone)
            | _ => (if dhas $"unit_offsets" d then store Offsets None o else o, Ok PNone)
            end
  end.
(** Grain.TIMELABEL: the setters, Grain.py 592-621, and add_timelabel, 540-546. *)
Definition in_label (key : str) (v : pv) (d : dict) : res dict := with_key $"timelabel" (fun t => Ok (dset key v t)) d.
Definition put_tag (v : pv) (d : dict) : res dict := Ok (dset $"tag" v d).
Definition put_count (v : pv) (d : dict) : res dict := rbind (to_int v) (fun z => in_label $"frames_since_midnight" (PInt z) d).
Definition put_rate (v : pv) (d : dict) : res dict :=
  rbind (mk_frac v (PInt 1)) (fun f => match f with
    | PFrac n m => rbind (in_label $"frame_rate_numerator" (PInt n) d) (in_label $"frame_rate_denominator" (PInt m))
    | _ => Err EType end).
Definition put_drop (v : pv) (d : dict) : res dict := in_label $"drop_frame" (PBool (truthy v)) d.
Definition new_label : res dict := fill_label [].
Definition add_timelabel (tag count rate drop : pv) : act pv :=
  mbind (lift (rbind new_label (fun d => rbind (put_tag tag d) (fun d => rbind (put_count count d) (fun d => rbind (put_rate rate d) (put_drop drop))))))
    (fun d => append Labels (PDict d)).
(** [grain.timelabels[i].count = v] and so on: the element is the dictionary in the metadata. *)
Definition edit_label (i : Z) (f : dict -> res dict) : act pv :=
  mbind (get_item Labels i) (fun v => mbind (lift (rbind (as_dict v) f)) (fun d => with_list Labels (fun l => mbind (lift (lput l i (PDict d))) (fun l => put_list Labels (Some l))))).
(** The attributes, 588-590, 596-598, 604-607, 615-617. *)
Definition label_tag (d : dict) : res pv := ditem $"tag" d.
Definition label_count (d : dict) : res pv := rbind (ditem $"timelabel" d) (sub $"frames_since_midnight").
Definition label_rate (d : dict) : res pv :=
  rbind (ditem $"timelabel" d) (fun t => rbind (sub $"frame_rate_numerator" t) (fun n => rbind (sub $"frame_rate_denominator" t) (fun m => mk_frac n m))).
Definition label_drop (d : dict) : res pv := rbind (ditem $"timelabel" d) (sub $"drop_frame").
