(** C69: comparing a grain with what assignments have made of it. *)
From Coq Require Import String.
From Verif Require Import Base PyValue CogEnums GrainObj Compare CompareSpec CompareExample ReportSpec GrainGsfSpec GrainSet ChangeSpec ChangeMain GrainSetExample ChangeExample.
From Verif Require GrainSetSpec.
From Verif Require Import SavedProofs.
Local Open Scope list_scope.

(** Any history of assignments after which everything can still be read: reported is exactly what reads differently, and it is fatal unless it is the time of creation. *)
Theorem C69_changes : forall psnr l o o' outs, GrainSetSpec.shaped o -> of_own_type o -> meta_ok o -> stored_ok o -> no_nan o -> can_compare psnr [] o o ->
  Forall (fun nv => exists so, dget (fst nv) (GrainSetSpec.sorts (o_class o)) = Some so /\ GrainSetSpec.sayable so (snd nv)) l ->
  set_all l o = (o', outs) -> of_own_type o' -> still_readable o o' ->
  exists r, compare_grain psnr [] o o' = Ok r /\ (forall n, In n (failing_attributes r) <-> told o o' n) /\
    (r_equal r = true <-> forall n, told o o' n -> n = $"creation_timestamp").
Proof. exact changes. Qed.
Print Assumptions C69_changes.
Example C69_changes_ex : ready ex_coded /\
  let '(o, _) := set_all [($"source_id", PUuid 7); ($"temporal_offset", PNone); ($"rate", PInt 50); ($"source_aspect_ratio", PFrac 16 9); ($"rate", PFrac 25 1); ($"format", PInt MJPEG)] ex_coded in
  outline (compare_grain no_psnr [] ex_coded o) = Ok (false, [$"src_id"; $"cog_frame_format"; $"temporal_offset"; $"data"]) /\
  let '(o, _) := set_all [($"topic", PStr $"longer")] (ex_event $"short") in outline (compare_grain no_psnr [] (ex_event $"short") o) = Ok (false, [$"length"; $"topic"]).
Proof. split; [exact ex_coded_ready|]. vm_compute. auto. Qed.

(** One assignment to anything but an event: reported is the attribute under the name it is compared by, and with the format the payload. *)
Theorem C69_change : forall psnr o n so v o' x w, GrainSetSpec.shaped o -> of_own_type o -> meta_ok o -> stored_ok o -> no_nan o -> can_compare psnr [] o o ->
  dget n (GrainSetSpec.sorts (o_class o)) = Some so -> GrainSetSpec.sayable so v -> o_class o <> KEvent -> n <> $"grain_type" ->
  set_attr n v o = Ok o' -> getattr o n = Ok x -> getattr o' n = Ok w ->
  exists r, compare_grain psnr [] o o' = Ok r /\
    (forall m, In m (failing_attributes r) <-> py_eq x w = false /\
       ((In m (compared (o_class o)) /\ GrainSetSpec.same_attr n m = true) \/
        (m = $"data" /\ exists f, In f (compared (o_class o)) /\ In f format_names /\ GrainSetSpec.same_attr n f = true))) /\
    (r_equal r = true <-> py_eq x w = true \/ n = $"creation_timestamp" \/ In n overlooked).
Proof. exact change. Qed.
Print Assumptions C69_change.
Example C69_change_ex : ready ex_coded /\ map (fun nv => rbind (set_attr (fst nv) (snd nv) ex_coded) (fun o => outline (compare_grain no_psnr [] ex_coded o)))
    [($"source_id", PUuidStr 7); ($"layout", PInt 2); ($"cog_frame_format", PInt MJPEG); ($"creation_timestamp", PTime 3); ($"pixel_aspect_ratio", PFrac 4 3); ($"coded_width", PInt 16)] =
  [Ok (false, [$"src_id"]); Ok (false, [$"cog_frame_layout"]); Ok (false, [$"cog_frame_format"; $"data"]); Ok (true, [$"creation_timestamp"]); Ok (true, []); Ok (true, [])].
Proof. split; [exact ex_coded_ready|]. vm_compute. reflexivity. Qed.

(** A grain of another type: the payloads are not compared, and that is reported too. *)
Theorem C69_retyped : forall psnr o v o', GrainSetSpec.shaped o -> of_own_type o -> meta_ok o -> stored_ok o -> no_nan o -> can_compare psnr [] o o -> pv_ok v -> o_class o <> KEvent ->
  set_attr $"grain_type" v o = Ok o' -> py_eq (PStr (own_type (o_class o))) v = false ->
  exists r, compare_grain psnr [] o o' = Ok r /\ r_equal r = false /\ forall m, In m (failing_attributes r) <-> m = $"grain_type" \/ m = $"data".
Proof. exact retyped. Qed.
Print Assumptions C69_retyped.
Example C69_retyped_ex : ready ex_coded /\ rbind (set_attr $"grain_type" (PStr $"video") ex_coded) (fun o => outline (compare_grain no_psnr [] ex_coded o)) = Ok (false, [$"grain_type"; $"data"]) /\
  rbind (set_attr $"grain_type" PNone ex_coded) (fun o => outline (compare_grain no_psnr [] ex_coded o)) = Ok (false, [$"grain_type"; $"data"]).
Proof. split; [exact ex_coded_ready|]. vm_compute. auto. Qed.

(** Not everything that differs is reported, and a changed attribute that can no longer be read makes the comparison raise. *)
Theorem C69_overlooked_refuted : exists o n v o', ready o /\ In n overlooked /\ set_attr n v o = Ok o' /\ getattr o n = Ok PNone /\ getattr o' n = Ok (PFrac 4 3) /\
  outline (compare_grain no_psnr [] o o') = Ok (true, []).
Proof.
  exists ex_coded, $"pixel_aspect_ratio", (PFrac 4 3). eexists. split; [exact ex_coded_ready|]. split; [right; right; left; reflexivity|].
  split; [vm_compute; reflexivity|]. vm_compute. auto.
Qed.
Print Assumptions C69_overlooked_refuted.
Theorem C69_unreadable_refuted : exists o n v o', ready o /\ In n (compared (o_class o)) /\ set_attr n v o = Ok o' /\ compare_grain no_psnr [] o o' = Err EValue.
Proof.
  exists ex_coded, $"cog_frame_format", (PInt 1). eexists. split; [exact ex_coded_ready|]. split; [exact (in_by $"cog_frame_format" (compared KCodedVideo) eq_refl)|].
  split; [vm_compute; reflexivity|]. vm_compute. reflexivity.
Qed.
Print Assumptions C69_unreadable_refuted.
