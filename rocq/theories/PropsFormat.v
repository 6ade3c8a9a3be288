(** C68, continued: the identifiers in the words about a comparison. *)
From Coq Require Import String Lia.
From Verif Require Import Base StrFormat FormatSpec FormatProofs GrainObj.
Local Open Scope list_scope.

(** The name of what is compared is put before the keys; braces in keys are to be doubled. *)
Theorem C68_identifier pre s x r : (forall c, In c pre -> c <> 123) ->
  id_format (pre ++ $"{}" ++ s) x = Ok r <-> exists t, s = doubled t /\ r = pre ++ x ++ t.
Proof. exact (id_named pre s x r). Qed.
Print Assumptions C68_identifier.
Example C68_identifier_ex : id_format $"len({}.data['{{x}}'])" $"a" = Ok $"len(a.data['{x}'])" /\ $".data['{{x}}'])" = doubled $".data['{x}'])".
Proof. vm_compute. split; reflexivity. Qed.

(** Other braces make the comparison itself raise, which error it is depends on the first field they make. *)
Theorem C68_identifier_error pre s x e : (forall c, In c pre -> c <> 123) -> id_format (pre ++ $"{}" ++ s) x = Err e ->
  (e = EIndex <-> asks next_one s) /\ (e = EKey <-> asks named s) /\ (e = EIndex \/ e = EKey \/ e = EValue).
Proof. exact (id_error pre s x e). Qed.
Print Assumptions C68_identifier_error.
Example C68_identifier_error_ex :
  map (fun k => id_format ($"{}.data['" ++ k ++ $"']") $"a") [$"{}"; $"{x}"; $"{1}"; $"{x"; $"{[}].y!r:>{w}}"; $"{x!r>}"; $"}"] =
  [Err EIndex; Err EKey; Err EValue; Err EValue; Err EIndex; Err EValue; Err EValue].
Proof. vm_compute. reflexivity. Qed.
Example C68_asks_ex : asks named ($".data['" ++ $"{ab.c[}]!r:>{w}}" ++ $"']").
Proof.
  exists $".data['", $"ab.c[}]!r:>{w}}']", $"ab.c[}]", $"ab". split; [vm_compute; reflexivity|]. split; [|split].
  - split.
    + do 4 (apply fn_plain; [vm_compute; lia|]). apply (fn_index $"}" []); [vm_compute; lia|apply fn_end].
    + exists $"!r", $":>{w}", $"']". split; [reflexivity|]. split; [right; now exists 114|]. right. exists $">{w}". split; [reflexivity|].
      apply ba_plain; [discriminate|discriminate|]. apply (ba_nest $"w" []); [|apply ba_end]. apply ba_plain; [discriminate|discriminate|apply ba_end].
  - split; [intros c [<-|[<-|[]]]; split; discriminate|]. exists $".c[}]". split; [reflexivity|]. right. eexists _, _. split; [reflexivity|now left].
  - exists 97. split; [now left|lia].
Qed.
