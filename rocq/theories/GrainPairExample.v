(** Grains for the examples in PropsPair.v. *)
From Coq Require Import String Lia ZifyBool.
From Verif Require Import Base PyValue PyList GrainObj Event Lists GrainSet Compare CompareSpec CompareExample SavedExample GrainSetExample GrainPair GrainPairSpec.
Local Open Scope list_scope.

(** The coded grain with the fields of its metadata in another order and its width as a fraction. *)
Definition pr_turned : gobj :=
  mkO (o_class ex_coded) (rev (map (fun kv => (fst kv, match snd kv with PDict d => PDict (rev d) | v => v end)) (o_meta (ex_object (set_attr $"coded_width" (PFrac 16 1) ex_coded))))) (o_data ex_coded) (o_wait ex_coded).
Definition pr_wider : gobj := ex_object (set_attr $"coded_width" (PInt 17) ex_coded).
Definition pr_longer : gobj := mkO (o_class ex_coded) (o_meta ex_coded) (Some [1; 2; 3; 4]) None.
(** Two events whose entries are equal. *)
Definition pr_event (v : pv) : gobj := fst (apply_ops [Append (PStr $"/x") v PNone] (ex_object (kw_event 5 ex_kw $"urn:x" $"/a" ANone))).
Definition pr_event1 : gobj := pr_event (PDict [($"a", PInt 1); ($"b", PInt 2)]).
Definition pr_event2 : gobj := pr_event (PDict [($"b", PInt 2); ($"a", PInt 1)]).
(** Two grains whose payloads are yet to come. *)
Definition pr_wait (n : Z) : gobj := ex_object (set_length n ex_waiting).
(** A grain with a label that says little. *)
Definition pr_labelled : gobj := ex_object (GrainFactory 5 [($"grain", PDict [($"grain_type", PStr $"empty"); ($"timelabels", PList [PDict [($"tag", PStr $"t")]])])] ANone).
Definition pr_looked : gobj := fst (do_op Labels (LGet 0) pr_labelled).
Ltac pairs_good := unfold meta_ok; dict_good.
Lemma pr_coded_ok : meta_ok ex_coded /\ meta_ok pr_turned /\ meta_ok pr_wider.
Proof. split; [pairs_good|]. split; pairs_good. Qed.
Lemma pr_events_ok : meta_ok pr_event1 /\ meta_ok pr_event2.
Proof. split; pairs_good. Qed.
Lemma pr_labels_ok : meta_ok pr_labelled /\ meta_ok pr_looked.
Proof. split; pairs_good. Qed.
Lemma pr_waits_ok n : n = 3 \/ n = 5 -> meta_ok (pr_wait n).
Proof. intros [-> | ->]; pairs_good. Qed.
