(** What an event payload is and what each operation does to it. *)
From Coq Require Import String.
From Verif Require Import Base PyValue ListSpec Json Utf8 GrainObj Event.
Local Open Scope list_scope.

(** An entry says for each key whether it is there and with which value. *)
Definition entry := str -> option pv.
Record payload := mkP { p_type : pv; p_topic : pv; p_entries : list entry }.
Definition with_entries (p : payload) (l : list entry) : payload := mkP (p_type p) (p_topic p) l.
Definition upd (e : entry) (k : str) (v : option pv) : entry := fun k' => if zlist_eqb k' k then v else e k'.
Definition nothing : entry := fun _ => None.

(** The grain shows the payload. *)
Definition is_entry (v : pv) (e : entry) : Prop := exists d, v = PDict d /\ NoDup (map fst d) /\ forall k, dget k d = e k.
Definition shows (o : gobj) (p : payload) : Prop :=
  exists g d l, dget $"grain" (o_meta o) = Some (PDict g) /\ dget $"event_payload" g = Some (PDict d) /\
    dget $"type" d = Some (p_type p) /\ dget $"topic" d = Some (p_topic p) /\ dget $"data" d = Some (PList l) /\ Forall2 is_entry l (p_entries p).
(** Nothing but the payload differs. *)
Definition same_but_payload (o o' : gobj) : Prop :=
  o_class o' = o_class o /\ o_data o' = o_data o /\ o_wait o' = o_wait o /\
  (forall k, k <> $"grain" -> dget k (o_meta o') = dget k (o_meta o)) /\
  (forall k, k <> $"event_payload" -> field k o' = field k o).

(** ** The JSON text of a payload. *)
Definition known (k : str) : bool := zlist_eqb k $"path" || zlist_eqb k $"pre" || zlist_eqb k $"post".
(** An entry in a JSON text: a dictionary with a path; other keys than the three are dropped. *)
Definition json_entry (v : pv) (e : entry) : Prop :=
  exists d, v = PDict d /\ dget $"path" d <> None /\ forall k, e k = if known k then dget k d else None.
Definition bad_entry (v : pv) (x : err) : Prop :=
  match v with PDict d => dget $"path" d = None /\ x = EKey | _ => x = EType end.
(** The entries up to the first bad one. *)
Definition json_entries (v : pv) (l : list entry) (x : option err) : Prop :=
  match v with
  | PList vs => exists good rest, vs = good ++ rest /\ Forall2 json_entry good l /\
                  match x with None => rest = [] | Some e => exists w ws, rest = w :: ws /\ bad_entry w e end
  | PDict [] | PStr [] => l = [] /\ x = None
  | _ => l = [] /\ x = Some EType
  end.
(** Setting the data to a text. *)
Inductive takes (b : bytes) (p : payload) : payload -> option err -> Prop :=
| takes_binary : utf8_dec b = None -> takes b p p (Some EUnicode)
| takes_text s e : utf8_dec b = Some s -> loads s = Err e -> takes b p p (Some e)
| takes_other s v e : utf8_dec b = Some s -> loads s = Ok v -> e = EType \/ e = EValue ->
    (forall d t tp l, v = PDict d -> dget $"type" d = Some t -> dget $"topic" d = Some tp -> dget $"data" d = Some l -> False) -> takes b p p (Some e)
| takes_payload s d t tp l es x : utf8_dec b = Some s -> loads s = Ok (PDict d) ->
    dget $"type" d = Some t -> dget $"topic" d = Some tp -> dget $"data" d = Some l -> json_entries l es x -> takes b p (mkP t tp es) x.

(** ** The operations. *)
(** On one entry. *)
Inductive on_entry : eop -> Z -> entry -> entry -> option err -> Prop :=
| on_put i k v e : on_entry (PutKey i k v) i e (upd e k (Some v)) None
| on_del i k e v : e k = Some v -> on_entry (DelKey i k) i e (upd e k None) None
| on_del_missing i k e : e k = None -> on_entry (DelKey i k) i e e (Some EKey)
| on_path i v e : on_entry (PutPath i v) i e (upd e $"path" (Some v)) None
| on_pre i v e : v <> PNone -> on_entry (PutPre i v) i e (upd e $"pre" (Some v)) None
| on_pre_none i e v : e $"pre" = Some v -> on_entry (PutPre i PNone) i e (upd e $"pre" None) None
| on_pre_missing i e : e $"pre" = None -> on_entry (PutPre i PNone) i e e (Some EKey)
| on_post i v e : v <> PNone -> on_entry (PutPost i v) i e (upd e $"post" (Some v)) None
| on_post_none i e : on_entry (PutPost i PNone) i e (upd e $"post" None) None.
Definition entry_index (op : eop) : option Z :=
  match op with PutKey i _ _ | DelKey i _ | PutPath i _ | PutPre i _ | PutPost i _ => Some i | _ => None end.
Definition unless_none (v : pv) : option pv := match v with PNone => None | _ => Some v end.
Inductive does : eop -> payload -> payload -> option err -> Prop :=
| does_type v p : does (SetType v) p (mkP v (p_topic p) (p_entries p)) None
| does_topic v p : does (SetTopic v) p (mkP (p_type p) v (p_entries p)) None
| does_append path pre post p :
    does (Append path pre post) p
      (with_entries p (p_entries p ++ [upd (upd (upd nothing $"path" (Some path)) $"pre" (unless_none pre)) $"post" (unless_none post)])) None
| does_entries l p : does (SetEntries l) p (with_entries p (map (fun d k => dget k d) l)) None
| does_data b p p' x : takes b p p' x -> does (SetData b) p p' x
| does_entry op i p a e b e' x : at_index (p_entries p) i a e b -> on_entry op i e e' x -> does op p (with_entries p (a ++ e' :: b)) x
| does_index op i p : entry_index op = Some i -> no_index (p_entries p) i -> does op p p (Some EIndex).
Inductive does_all : list eop -> payload -> payload -> list (option err) -> Prop :=
| all_nil p : does_all [] p p []
| all_cons op ops p p1 p2 x xs : does op p p1 x -> does_all ops p1 p2 xs -> does_all (op :: ops) p p2 (x :: xs).
(** Dictionaries have each key once. *)
Definition op_ok (op : eop) : Prop := match op with SetEntries l => Forall (fun d => NoDup (map fst d)) l | _ => True end.

(** Payloads that JSON can carry; what is left of one. *)
Definition entry_json_ok (e : entry) : Prop := (forall k v, e k = Some v -> Forall char_ok k /\ json_ok v).
Definition payload_json_ok (p : payload) : Prop := json_ok (p_type p) /\ json_ok (p_topic p) /\ Forall entry_json_ok (p_entries p).
Definition kept (e e' : entry) : Prop := forall k, e' k = if known k then e k else None.
Definition same_payload (p p' : payload) : Prop := p_type p = p_type p' /\ p_topic p = p_topic p' /\ Forall2 kept (p_entries p) (p_entries p').
