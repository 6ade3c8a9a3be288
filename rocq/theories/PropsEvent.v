(** C48: editing the payload of an event grain, and its JSON. *)
From Coq Require Import String.
From Verif Require Import Base PyValue ListSpec Json JsonFuel GrainObj Event EventSpec EventProofs EventMain EventExample BuildSpec.
Local Open Scope list_scope.

(** Every history of edits does what the specification says, with the same exceptions, and leaves the rest of the grain alone. *)
Theorem C48_history ops o p : Forall op_ok ops -> shows o p ->
  exists p' xs o', apply_ops ops o = (o', xs) /\ does_all ops p p' xs /\ shows o' p' /\ same_but_payload o o'.
Proof. exact (ops_do ops o p). Qed.
Print Assumptions C48_history.
Example C48_history_ex : let '(o, xs) := apply_ops ex_ops ex_event in
  xs = [None; None; None; None; Some EKey; Some EIndex; Some EValue; None] /\
  event_entries o = Ok [PDict [($"path", PStr $"/x")]; PDict [($"path", PStr $"/y"); ($"post", PList [PNone]); ($"pre", PBool false)]] /\
  getattr o $"topic" = Ok (PStr [233; 0x1F600]).
Proof. vm_compute. repeat split. Qed.

(** Reading shows the payload. *)
Theorem C48_read o p : shows o p -> in_section $"event_payload" $"type" o = Ok (p_type p) /\ in_section $"event_payload" $"topic" o = Ok (p_topic p) /\
  entry_count o = Ok (zlen (p_entries p)).
Proof. exact (read_all o p). Qed.
Print Assumptions C48_read.
Theorem C48_read_entry o p i a e b : shows o p -> at_index (p_entries p) i a e b ->
  (forall k, entry_item i k o = match e k with Some v => Ok v | None => Err EKey end) /\ entry_pre i o = Ok (or_none (e $"pre")) /\ entry_post i o = Ok (or_none (e $"post")).
Proof. exact (read_one o p i a e b). Qed.
Print Assumptions C48_read_entry.
Theorem C48_read_none o p i k : shows o p -> no_index (p_entries p) i -> entry_item i k o = Err EIndex /\ entry_pre i o = Err EIndex /\ entry_post i o = Err EIndex.
Proof. exact (read_none o p i k). Qed.
Print Assumptions C48_read_none.
Example C48_read_ex : let o := fst (apply_ops ex_ops ex_event) in
  entry_count o = Ok 2 /\ entry_post (-1) o = Ok (PList [PNone]) /\ entry_post 0 o = Ok PNone /\ entry_item 0 $"post" o = Err EKey /\ entry_pre (-3) o = Err EIndex.
Proof. vm_compute. repeat split. Qed.

(** Setting before and after values. *)
Theorem C48_set_pre o p i a e b v : shows o p -> at_index (p_entries p) i a e b -> v <> PNone ->
  exists o', apply_op (PutPre i v) o = (o', None) /\ entry_pre i o' = Ok v /\ entry_post i o' = entry_post i o /\ shows o' (with_entries p (a ++ upd e $"pre" (Some v) :: b)).
Proof. exact (set_pre o p i a e b v). Qed.
Print Assumptions C48_set_pre.
Theorem C48_set_pre_none o p i a e b : shows o p -> at_index (p_entries p) i a e b ->
  exists o', apply_op (PutPre i PNone) o = (o', match e $"pre" with Some _ => None | None => Some EKey end) /\ entry_pre i o' = Ok PNone /\ entry_post i o' = entry_post i o /\
    entry_item i $"pre" o' = Err EKey /\ shows o' (with_entries p (a ++ (match e $"pre" with Some _ => upd e $"pre" None | None => e end) :: b)).
Proof. exact (set_pre_none o p i a e b). Qed.
Print Assumptions C48_set_pre_none.
Theorem C48_set_post o p i a e b v : shows o p -> at_index (p_entries p) i a e b ->
  exists o', apply_op (PutPost i v) o = (o', None) /\ entry_post i o' = Ok v /\ entry_pre i o' = entry_pre i o /\
    entry_item i $"post" o' = match v with PNone => Err EKey | _ => Ok v end /\ shows o' (with_entries p (a ++ upd e $"post" (unless_none v) :: b)).
Proof. exact (set_post o p i a e b v). Qed.
Print Assumptions C48_set_post.
Example C48_set_ex : let o := fst (apply_ops ex_ops ex_event) in
  entry_pre 1 (fst (apply_op (PutPre 1 (PInt 9)) o)) = Ok (PInt 9) /\ apply_op (PutPre 0 PNone) o = (o, Some EKey) /\ snd (apply_op (PutPost 0 PNone) o) = None.
Proof. vm_compute. repeat split. Qed.

(** The data attribute is the JSON of the payload, and setting any event grain to it gives the payload back. *)
Theorem C48_json o p : o_class o = KEvent -> shows o p -> payload_json_ok p -> exists b, get_data o = Ok (Some b) /\ payload_text b p /\ bytes_ok b.
Proof. exact (data_text o p). Qed.
Print Assumptions C48_json.
Theorem C48_round_trip b p o0 p0 : payload_text b p -> Forall (fun e : entry => e $"path" <> None) (p_entries p) -> shows o0 p0 ->
  exists o' p', apply_op (SetData b) o0 = (o', None) /\ shows o' p' /\ same_payload p p' /\ same_but_payload o0 o'.
Proof. exact (text_read b p o0 p0). Qed.
Print Assumptions C48_round_trip.
Theorem C48_loads s : loads s <> Err EFuel.
Proof. exact (loads_fuel s). Qed.
Print Assumptions C48_loads.
Example C48_round_trip_ex : let o := fst (apply_ops ex_ops ex_event) in
  exists b, get_data o = Ok (Some b) /\ zlen b = 120 /\
  event_entries (fst (apply_op (SetData b) ex_event)) = Ok [PDict [($"path", PStr $"/x")]; PDict [($"path", PStr $"/y"); ($"pre", PBool false); ($"post", PList [PNone])]] /\
  getattr (fst (apply_op (SetData b) ex_event)) $"topic" = Ok (PStr [233; 0x1F600]).
Proof. eexists. split; [vm_compute; reflexivity|]. vm_compute. repeat split. Qed.
(** A text in another layout, with an entry that has no path. *)
Example C48_text_ex : let '(o, x) := apply_op (SetData ex_text) ex_event in
  x = Some EKey /\ getattr o $"event_type" = Ok (PInt (-12)) /\ event_entries o = Ok [PDict [($"path", PStr $"p"); ($"post", PNone)]].
Proof. vm_compute. repeat split. Qed.

(** New event grains show their payload; the constructor with a payload text is the constructor and then the setter. *)
Theorem C48_new now k kind topic o : kw_event now k kind topic ANone = Ok o -> o_class o = KEvent /\ shows o (mkP (PStr kind) (PStr topic) []).
Proof. exact (new_event now k kind topic o). Qed.
Print Assumptions C48_new.
Theorem C48_built now m o f l es : init KEvent now m ANone = Ok o -> dget $"event_payload" (fields m) = Some (PDict f) -> dget $"data" f = Some (PList l) -> Forall2 is_entry l es ->
  o_class o = KEvent /\ shows o (mkP (given f $"type" (PStr [])) (given f $"topic" (PStr [])) es).
Proof. exact (built_event now m o f l es). Qed.
Print Assumptions C48_built.
Theorem C48_construct now m b : init KEvent now m (ABytes b) = rbind (init KEvent now m ANone) (fun o => raising (apply_op (SetData b) o)).
Proof. exact (construct_bytes now m b). Qed.
Print Assumptions C48_construct.
Example C48_construct_ex : init KEvent 5 (o_meta ex_event) (ABytes ex_text) = Err EKey /\ init KEvent 5 [] (ABytes [255]) = Err EUnicode /\
  rbind (init KEvent 5 [] (ABytes $"{""type"": """", ""topic"": ""u"", ""data"": {}}")) (fun o => getattr o $"topic") = Ok (PStr $"u").
Proof. vm_compute. repeat split. Qed.
