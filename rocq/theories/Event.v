(** Editing an event grain: /repo/mediagrains/grains/EventGrain.py. An operation leaves a state even when it raises. The
    entries are dictionaries in the metadata; a value put into an entry is taken as a copy (sharing with the caller's objects
    is not modelled). *)
From Coq Require Import String.
From Verif Require Import Base PyValue PyList Json Utf8 GrainObj.
Local Open Scope list_scope.

(** Changing [self.meta['grain']['event_payload']]. *)
Definition edit (f : dict -> dict * option err) (o : gobj) : gobj * option err :=
  match rbind (ditem $"grain" (o_meta o)) as_dict with
  | Err e => (o, Some e)
  | Ok g =>
      match rbind (ditem $"event_payload" g) as_dict with
      | Err e => (o, Some e)
      | Ok d => let '(d, x) := f d in
                (mkO (o_class o) (dset $"grain" (PDict (dset $"event_payload" (PDict d) g)) (o_meta o)) (o_data o) (o_wait o), x)
      end
  end.
Definition edit_list (f : list pv -> res (list pv)) : gobj -> gobj * option err :=
  edit (fun d => match rbind (rbind (ditem $"data" d) as_list) f with Ok l => (dset $"data" (PList l) d, None) | Err e => (d, Some e) end).
(** [self.event_data[i]], EventGrain.py 309-311, changed by f. *)
Definition edit_entry (i : Z) (f : dict -> res dict) : gobj -> gobj * option err :=
  edit_list (fun l => rbind (lget l i) (fun v => rbind (as_dict v) (fun e => rbind (f e) (fun e => lput l i (PDict e))))).

(** DATA.__setitem__, __delitem__ and the setters, EventGrain.py 255-259, 277-307. *)
Definition put_key (k : str) (v : pv) (e : dict) : res dict := Ok (dset k v e).
Definition del_key (k : str) (e : dict) : res dict := if dhas k e then Ok (ddel k e) else Err EKey.
Definition put_pre (v : pv) (e : dict) : res dict := match v with PNone => del_key $"pre" e | _ => put_key $"pre" v e end.
Definition put_post (v : pv) (e : dict) : res dict :=
  match v with PNone => if dhas $"post" e then Ok (ddel $"post" e) else Ok e | _ => put_key $"post" v e end.
(** EventGrain.append, 317-324. *)
Definition new_entry (path pre post : pv) : dict :=
  let e := [($"path", path)] in
  let e := match pre with PNone => e | _ => dset $"pre" pre e end in
  match post with PNone => e | _ => dset $"post" post e end.

Inductive eop :=
| SetData (b : bytes) | SetType (v : pv) | SetTopic (v : pv) | Append (path pre post : pv) | SetEntries (l : list dict)
| PutKey (i : Z) (k : str) (v : pv) | DelKey (i : Z) (k : str) | PutPath (i : Z) (v : pv) | PutPre (i : Z) (v : pv) | PutPost (i : Z) (v : pv).
(** Setters 187-205, 214-216, 222-224, 313-315; the rest as above. *)
Definition apply_op (op : eop) : gobj -> gobj * option err :=
  match op with
  | SetData b => edit (set_payload b)
  | SetType v => edit (fun d => (dset $"type" v d, None))
  | SetTopic v => edit (fun d => (dset $"topic" v d, None))
  | Append path pre post => edit_list (fun l => Ok (l ++ [PDict (new_entry path pre post)]))
  | SetEntries l => edit (fun d => (dset $"data" (PList (map PDict l)) d, None))
  | PutKey i k v => edit_entry i (put_key k v)
  | DelKey i k => edit_entry i (del_key k)
  | PutPath i v => edit_entry i (put_key $"path" v)
  | PutPre i v => edit_entry i (put_pre v)
  | PutPost i v => edit_entry i (put_post v)
  end.
Fixpoint apply_ops (ops : list eop) (o : gobj) : gobj * list (option err) :=
  match ops with [] => (o, []) | op :: ops => let '(o, x) := apply_op op o in let '(o, xs) := apply_ops ops o in (o, x :: xs) end.

(** Reading an entry: 252-253, 273-275, 281-286, 295-300, and [len(grain.event_data)]. *)
Definition entry_at (i : Z) (o : gobj) : res dict := rbind (event_entries o) (fun l => rbind (lget l i) as_dict).
Definition entry_item (i : Z) (k : str) (o : gobj) : res pv := rbind (entry_at i o) (ditem k).
Definition entry_path (i : Z) (o : gobj) : res pv := entry_item i $"path" o.
Definition entry_pre (i : Z) (o : gobj) : res pv := rbind (entry_at i o) (fun e => Ok (or_none (dget $"pre" e))).
Definition entry_post (i : Z) (o : gobj) : res pv := rbind (entry_at i o) (fun e => Ok (or_none (dget $"post" e))).
Definition entry_count (o : gobj) : res Z := rbind (event_entries o) (fun l => Ok (zlen l)).
