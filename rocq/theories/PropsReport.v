(** C62: the report of a comparison. *)
From Coq Require Import String.
From Verif Require Import Base PyValue Json CogEnums GrainObj Compare CompareSpec CompareExample ReportSpec ReportMain.
Local Open Scope list_scope.

(** ** C62. The names reported are exactly those of the attributes that differ, with what the options say about differences. *)
Theorem C62_report psnr opts a b r n : stored_ok a -> stored_ok b -> compare_grain psnr opts a b = Ok r ->
  In n (failing_attributes r) <-> reported opts a b n.
Proof. exact (report psnr opts a b r n). Qed.
Print Assumptions C62_report.
Example C62_report_ex :
  rbind (compare_grain no_psnr [] (ex_s16 5 [1; 2; 3; 4]) (ex_audio 2 8 1040 6 [1; 2; 3; 5])) (fun r => Ok (failing_attributes r)) =
    Ok [$"flow_id"; $"origin_timestamp"; $"sync_timestamp"; $"creation_timestamp"; $"data"] /\
  rbind (compare_grain no_psnr [OExpect $"{}.sync_timestamp" (fun d => d <? 0); Exclude $"flow_id"] (ex_s16 5 [1; 2; 3; 4]) (ex_audio 2 8 1040 6 [1; 2; 3; 4]))
    (fun r => Ok (failing_attributes r)) = Ok [$"flow_id"; $"origin_timestamp"; $"creation_timestamp"] /\
  rbind (compare_grain no_psnr [] (ex_s16 5 [1; 2; 3; 4]) (ex_event $"t")) (fun r => Ok (failing_attributes r)) =
    Ok [$"grain_type"; $"length"; $"data"].
Proof. vm_compute. repeat split. Qed.

(** Each name once. *)
Theorem C62_once psnr opts a b r : stored_ok a -> stored_ok b -> compare_grain psnr opts a b = Ok r -> NoDup (failing_attributes r).
Proof. exact (report_once psnr opts a b r). Qed.
Print Assumptions C62_once.
Example C62_once_ex :
  rbind (compare_grain no_psnr [] (ex_s16 5 [1; 2; 3; 4]) (ex_s24 [1; 2; 3; 4])) (fun r => Ok (failing_attributes r)) = Ok [$"cog_audio_format"; $"data"].
Proof. vm_compute. reflexivity. Qed.

(** Without PSNR of the payload the verdict follows from the report: all that is reported is excused. *)
Theorem C62_verdict psnr opts a b r : stored_ok a -> stored_ok b -> ~ psnr_asked opts -> compare_grain psnr opts a b = Ok r ->
  r_equal r = true <-> forall n, In n (failing_attributes r) -> excused opts a b n.
Proof. exact (report_verdict psnr opts a b r). Qed.
Print Assumptions C62_verdict.
Example C62_verdict_ex :
  rbind (compare_grain no_psnr [Exclude $"topic"] (ex_event $"a") (ex_event $"bc")) (fun r => Ok (r_equal r, failing_attributes r)) =
    Ok (true, [$"length"; $"topic"]) /\
  rbind (compare_grain no_psnr [Exclude $"format"] (ex_s16 5 [1; 2; 3; 4]) (ex_s24 [1; 2; 3; 4])) (fun r => Ok (r_equal r, failing_attributes r)) =
    Ok (true, [$"cog_audio_format"; $"data"]).
Proof. vm_compute. split; reflexivity. Qed.

(** Without options: nothing but the creation time may be reported. *)
Theorem C62_strict psnr a b r : stored_ok a -> stored_ok b -> compare_grain psnr [] a b = Ok r ->
  r_equal r = true <-> forall n, In n (failing_attributes r) -> n = $"creation_timestamp".
Proof. exact (report_strict psnr a b r). Qed.
Print Assumptions C62_strict.
Example C62_strict_ex :
  rbind (compare_grain no_psnr [] (ex_s16 5 [1; 2; 3; 4]) (ex_s16 6 [1; 2; 3; 4])) (fun r => Ok (r_equal r, failing_attributes r)) =
    Ok (true, [$"creation_timestamp"]).
Proof. vm_compute. reflexivity. Qed.

(** The result of an attribute is found by its name, and says whether it is reported and whether it is excused; a name that is not
    found is not reported. *)
Theorem C62_lookup psnr opts a b r n : stored_ok a -> stored_ok b -> compare_grain psnr opts a b = Ok r ->
  match subcomparison_for_attribute n r with
  | Ok c => r_id c = path n /\ (r_equal c = false <-> reported opts a b n) /\ (excluded c = true <-> excused opts a b n)
  | Err e => e = EKey /\ ~ reported opts a b n
  end.
Proof. exact (report_lookup psnr opts a b r n). Qed.
Print Assumptions C62_lookup.
Example C62_lookup_ex :
  rbind (compare_grain no_psnr [] (ex_s16 5 [1; 2; 3; 4]) (ex_s16 6 [1; 2; 3; 4])) (fun r => rbind (subcomparison_for_attribute $"creation_timestamp" r)
    (fun c => Ok (r_equal c, excluded c))) = Ok (false, true) /\
  rbind (compare_grain no_psnr [] (ex_s16 5 [1; 2; 3; 4]) (ex_s16 6 [1; 2; 3; 4])) (fun r => rbind (subcomparison_for_attribute $"topic" r)
    (fun c => Ok (r_equal c))) = Err EKey.
Proof. vm_compute. split; reflexivity. Qed.

(** With PSNR a comparison can fail without any attribute to blame ... *)
Theorem C62_psnr_refuted : exists opts a b r, stored_ok a /\ stored_ok b /\ compare_grain no_psnr opts a b = Ok r /\ r_equal r = false /\ failing_attributes r = [].
Proof.
  exists [OPsnr $"{}.data" (fun _ => true)], (ex_s16 5 [1; 2; 3; 4]), (ex_s16 5 [9; 2; 3; 4]). eexists.
  split; [intros x E; vm_compute in E; injection E as <-; apply small_bytes; reflexivity|]. split; [intros x E; vm_compute in E; injection E as <-; apply small_bytes; reflexivity|].
  split; [vm_compute; reflexivity|]. split; vm_compute; reflexivity.
Qed.
Print Assumptions C62_psnr_refuted.
(** ... and payloads that are the same are reported if they are to be ignored. *)
Theorem C62_ignored_refuted : exists a r, stored_ok a /\ compare_grain no_psnr [Exclude $"data"] a a = Ok r /\ r_equal r = true /\ failing_attributes r = [$"data"].
Proof.
  exists (ex_s16 5 [1; 2; 3; 4]). eexists.
  split; [intros x E; vm_compute in E; injection E as <-; apply small_bytes; reflexivity|].
  split; [vm_compute; reflexivity|]. split; vm_compute; reflexivity.
Qed.
Print Assumptions C62_ignored_refuted.
