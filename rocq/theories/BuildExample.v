(** Metadata for the examples in PropsBuild.v. *)
From Coq Require Import String.
From Verif Require Import Base PyValue CogEnums GrainObj.
Local Open Scope list_scope.

(** A little metadata: a timestamp object, a rate object, an extra field, a part of an audio section. *)
Definition ex_partial : dict :=
  [($"extra", PInt 3);
   ($"grain", PDict [($"grain_type", PStr $"audio"); ($"creation_timestamp", PTime 7); ($"rate", PFrac 25 1); ($"note", PStr $"x");
                     ($"cog_audio", PDict [($"format", PInt 2); ($"channels", PInt 1)])])].
Definition ex_meta (r : res gobj) : dict := match r with Ok o => o_meta o | Err _ => [] end.
Definition ex_full_kw : kw := mkKw (Some 1) (Some 2) (Some 1000) None (Some 900) (25, 1) (1, 25).
