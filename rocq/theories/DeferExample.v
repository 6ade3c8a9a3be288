(** Data for the examples about deferred byte strings. *)
From Coq Require Import String.
From Verif Require Import Base GsfPrim GsfBlock GsfDecode GsfSpec GsfExamples GsfFileSpec PyValue GrainObj IoBytes DeferOps DeferDecode.
Local Open Scope list_scope.

(** Two for the same three bytes, one of them elsewhere in the order, and one that promises more than there is. *)
Definition ex_stream : bytes := [7; 1; 2; 3; 1; 2; 4].
Definition ex_store : store :=
  [io_new 1 3 ex_stream 5; io_new 1 3 ex_stream 5; io_new 4 3 ex_stream 5; io_new 5 4 ex_stream 5].
(** The first grain of a file, decoded lazily twice. *)
Definition ex_first : option GsfDecode.item :=
  match decode_file (mkCfg None LoadDefer true true false false) (ex_in (gsf_bytes ex_file)) with
  | Ok (_, (i :: _, _, _)) => Some i
  | _ => None
  end.
Definition ex_meta : dict := [($"grain", PDict [($"grain_type", PStr $"empty")])].
