(** Grains and operations for the examples in PropsCopy.v. *)
From Coq Require Import String.
From Verif Require Import Base PyValue CogEnums GrainObj Event GrainSet GrainSetExample GrainCopy.
Local Open Scope list_scope.

(** A shallow copy and a deep copy, each changed in every way. *)
Definition ex_cops : list cop :=
  [OCopy 0 7; ODeep 1 8; OSet 1 $"coded_width" (PInt 99); OSet 2 $"temporal_offset" PNone; OPoke 0 1 200; OData 1 (ABytes [4; 4]); OPoke 1 0 77; OPoke 2 5 1; OSet 0 $"rate" (PStr $"x"); ODeep 1 9].
Definition ex_odd_event : gobj :=
  fst (apply_ops [Append (PStr $"/x") (PInt 1) PNone; PutKey 0 $"note" (PStr $"n")] (ex_object (kw_event 5 ex_kw $"urn:x" $"/a" ANone))).
Definition ex_no_path : gobj := fst (apply_ops [DelKey 0 $"path"] ex_odd_event).
Definition ex_renamed : gobj := ex_object (set_attr $"grain_type" (PStr $"audio") ex_coded).
