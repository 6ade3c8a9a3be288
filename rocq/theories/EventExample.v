(** An event grain for the examples in PropsEvent.v. *)
From Coq Require Import String.
From Verif Require Import Base PyValue GrainObj Event.
Local Open Scope list_scope.

Definition ex_kw : kw := mkKw (Some 1) (Some 2) (Some 1000) None (Some 900) (25, 1) (1, 25).
Definition ex_event : gobj := match kw_event 5 ex_kw $"urn:x" $"/a" ANone with Ok o => o | Err _ => mkO KEvent [] None None end.
(** Two entries, one edited, one bad index, one text that is not JSON. *)
Definition ex_ops : list eop :=
  [Append (PStr $"/x") (PInt 1) PNone; Append (PStr $"/y") PNone (PList [PNone]); PutPre (-1) (PBool false); PutPre 0 PNone; PutPre 0 PNone; PutPost 2 PNone; SetData $"{]"; SetTopic (PStr [233; 0x1F600])].
Definition ex_text : bytes := $"{ ""topic"" : ""t"", ""data"": [{""post"": null, ""path"": ""p"", ""other"": 3}, {}], ""type"": -12}".
