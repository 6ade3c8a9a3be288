(** C66, continued: grains as sequences. *)
From Coq Require Import String.
From Verif Require Import Base PyValue PyList GrainObj GrainCopy CompareExample SavedExample GrainSetExample GrainPair GrainPairSpec GrainPairExample GrainSeq GrainSeqSpec GrainSeqProofs.
Local Open Scope list_scope.

(** [in] and [count]: a value is there once or not at all. *)
Theorem C66_contains : forall a b v, get_data a = Ok b ->
  (exists r, seq_contains a v = Ok r) /\ (seq_contains a v = Ok true <-> exists i, stands_at a b v i) /\
  exists n, seq_count a v = Ok n /\ (n = 0 \/ n = 1) /\ (n = 1 <-> exists i, stands_at a b v i).
Proof. exact (fun a b v H => conj (proj1 (contains_iff a b v H)) (conj (proj2 (contains_iff a b v H)) (count_iff a b v H))). Qed.
Print Assumptions C66_contains.
Example C66_contains_ex : seq_contains ex_coded (IData (Some [1; 2; 3])) = Ok true /\ seq_contains ex_coded (IData None) = Ok false /\ seq_contains ex_coded (IMeta (o_meta pr_turned)) = Ok true /\
  seq_count ex_coded (IData (Some [1; 2; 3])) = Ok 1 /\ seq_count ex_coded (IMeta []) = Ok 0.
Proof. vm_compute. repeat split. Qed.

(** [index] with its bounds, and [reversed]. *)
Theorem C66_index : forall a b v start stop, get_data a = Ok b ->
  (forall i, seq_index a v start stop = Ok i <-> stands_at a b v i /\ from_bound start i /\ below_bound stop i) /\
  (forall e, seq_index a v start stop = Err e -> e = EValue) /\ seq_reversed a = Ok [IData b; IMeta (o_meta a)].
Proof. exact (fun a b v start stop H => conj (proj1 (index_iff a b v start stop H)) (conj (proj2 (index_iff a b v start stop H)) (reversed_iff a b H))). Qed.
Print Assumptions C66_index.
Example C66_index_ex : seq_index ex_coded (IData (Some [1; 2; 3])) 0 None = Ok 1 /\ seq_index ex_coded (IData (Some [1; 2; 3])) (-1) None = Ok 1 /\
  seq_index ex_coded (IData (Some [1; 2; 3])) 0 (Some (-1)) = Err EValue /\ seq_index ex_coded (IMeta (o_meta ex_coded)) (-2) (Some 1) = Ok 0 /\ seq_index ex_coded (IMeta (o_meta ex_coded)) (-1) None = Err EValue /\
  seq_index ex_coded (IMeta (o_meta ex_coded)) (-7) (Some (-5)) = Err EValue.
Proof. vm_compute. repeat split. Qed.
