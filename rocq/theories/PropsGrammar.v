(** C72: json.loads reads exactly the texts of the JSON grammar (with integers as the only numbers), each with its one meaning. *)
From Coq Require Import String.
From Verif Require Import Base PyValue ListSpec Json Utf8 GrainObj Event EventSpec EventExample GrammarSpec GrammarMain GrammarEvent GrammarExample.
Local Open Scope list_scope.

(** What [loads] accepts, and what it gives. *)
Theorem C72_loads s v : loads s = Ok v <-> json_text s v.
Proof. exact (loads_exact s v). Qed.
Print Assumptions C72_loads.
Example C72_loads_ex : loads gr_text = Ok gr_value.
Proof. vm_compute. reflexivity. Qed.

(** Every other text is a JSONDecodeError, a ValueError. *)
Theorem C72_otherwise s : (forall v, ~ json_text s v) -> loads s = Err EValue.
Proof. exact (loads_other s). Qed.
Print Assumptions C72_otherwise.
Example C72_otherwise_ex : map loads gr_bad = map (fun _ => Err EValue) gr_bad.
Proof. vm_compute. reflexivity. Qed.

(** No text has two meanings. *)
Theorem C72_one_meaning s v v' : json_text s v -> json_text s v' -> v = v'.
Proof. exact (one_meaning s v v'). Qed.
Print Assumptions C72_one_meaning.
Example C72_one_meaning_ex : json_text gr_text gr_value.
Proof. apply C72_loads. vm_compute. reflexivity. Qed.

(** What [dumps] writes is a text of the value. *)
Theorem C72_dumps v t : json_ok v -> dumps v = Ok t -> json_text t v.
Proof. exact (dumps_text v t). Qed.
Print Assumptions C72_dumps.
Example C72_dumps_ex : dumps (PList [PInt (-10); PStr [233; 0x1F600; 34]; PDict [($"k", PBool false)]]) = Ok $"[-10, ""\u00e9\ud83d\ude00\"""", {""k"": false}]".
Proof. vm_compute. reflexivity. Qed.

(** Any text of a payload, however it is laid out, sets an event grain to that payload; its entries are taken up to the first bad one. *)
Theorem C72_payload s d t tp l es x o p : str_ok s -> json_text s (PDict d) -> dget $"type" d = Some t -> dget $"topic" d = Some tp -> dget $"data" d = Some l -> json_entries l es x -> shows o p ->
  exists o', apply_op (SetData (utf8_enc s)) o = (o', x) /\ shows o' (mkP t tp es) /\ same_but_payload o o'.
Proof. exact (payload_read s d t tp l es x o p). Qed.
Print Assumptions C72_payload.
(** Anything that is not JSON leaves the payload as it was. *)
Theorem C72_not_json s o p : str_ok s -> (forall v, ~ json_text s v) -> shows o p ->
  exists o', apply_op (SetData (utf8_enc s)) o = (o', Some EValue) /\ shows o' p /\ same_but_payload o o'.
Proof. exact (payload_refused s o p). Qed.
Print Assumptions C72_not_json.
Example C72_payload_ex : let '(o, x) := apply_op (SetData (utf8_enc gr_payload)) ex_event in
  x = None /\ getattr o $"topic" = Ok (PStr $"t") /\ event_entries o = Ok [PDict [($"path", PStr [112; 233]); ($"pre", PInt 1)]] /\
  apply_op (SetData $"{""type"": 'x'}") o = (o, Some EValue).
Proof. vm_compute. repeat split. Qed.
