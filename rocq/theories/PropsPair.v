(** C66: grains as pairs, and equal grains. *)
From Coq Require Import String.
From Verif Require Import Base PyValue PyList GrainObj Lists GrainSet GrainCopy GrainCopySpec Compare CompareSpec CompareExample SavedExample GrainSetExample
  GrainPair GrainPairSpec GrainPairMain GrainPairCompare GrainPairExample.
Local Open Scope list_scope.

(** Two grains are equal exactly if their metadata are and their payloads are the same; the question can be answered exactly if both payloads can be read. *)
Theorem C66_equal : forall a b, meta_ok a -> meta_ok b ->
  (grain_eq a (OGrain b) = Ok true <-> alike a b) /\ ((exists r, grain_eq a (OGrain b) = Ok r) <-> has_payload a /\ has_payload b).
Proof. exact (fun a b A B => conj (equal_iff a b A B) (equal_total a b)). Qed.
Print Assumptions C66_equal.
Example C66_equal_ex : meta_ok ex_coded /\ meta_ok pr_turned /\ ex_coded <> pr_turned /\ grain_eq ex_coded (OGrain pr_turned) = Ok true /\ grain_ne ex_coded (OGrain pr_turned) = Ok false /\
  grain_eq ex_coded (OGrain pr_wider) = Ok false /\ grain_eq ex_coded (OGrain pr_longer) = Ok false.
Proof. split; [apply pr_coded_ok|]. split; [apply pr_coded_ok|]. split; [intros H; apply (f_equal o_meta) in H; vm_compute in H; discriminate H|]. vm_compute. auto. Qed.

(** A tuple is equal to a grain exactly if it is such a pair; nothing else is, and [!=] is the opposite. *)
Theorem C66_others : forall a x r,
  (forall l, grain_eq a (OTuple l) = Ok true <-> exists d b, l = [IMeta d; IData b] /\ get_data a = Ok b /\ py_eq (PDict (o_meta a)) (PDict d) = true) /\
  (grain_eq a OElse = Ok r -> r = false) /\ (grain_ne a x = Ok r <-> grain_eq a x = Ok (negb r)).
Proof. exact (fun a x r => conj (equal_tuple a) (conj (equal_else a r) (different_iff a x r))). Qed.
Print Assumptions C66_others.
Example C66_others_ex : grain_eq ex_coded (OTuple [IMeta (o_meta pr_turned); IData (Some [1; 2; 3])]) = Ok true /\ grain_eq ex_coded (OTuple [IMeta (o_meta ex_coded); IData None]) = Ok false /\
  grain_eq ex_coded (OTuple [IData (Some [1; 2; 3]); IMeta (o_meta ex_coded)]) = Ok false /\ grain_eq ex_coded (OTuple [IMeta (o_meta ex_coded)]) = Ok false /\ grain_ne ex_coded OElse = Ok true.
Proof. vm_compute. auto 6. Qed.

(** Equality is an equivalence. (Two grains whose payloads both fail to be read may fail in two ways.) *)
Theorem C66_equivalence : forall a b c, meta_ok a -> meta_ok b -> meta_ok c ->
  (has_payload a -> grain_eq a (OGrain a) = Ok true) /\
  (grain_eq a (OGrain b) = grain_eq b (OGrain a) \/ ~ has_payload a /\ ~ has_payload b) /\
  (grain_eq a (OGrain b) = Ok true -> grain_eq b (OGrain c) = Ok true -> grain_eq a (OGrain c) = Ok true).
Proof. exact (fun a b c A B C => conj (equal_refl_grain a A) (conj (equal_sym_grain a b A B) (equal_trans_grain a b c A B C))). Qed.
Print Assumptions C66_equivalence.
Example C66_equivalence_ex : grain_eq ex_coded (OGrain ex_coded) = Ok true /\ grain_eq pr_turned (OGrain ex_coded) = Ok true /\ grain_eq pr_wider (OGrain ex_coded) = Ok false /\ grain_eq pr_turned (OGrain pr_wider) = Ok false.
Proof. vm_compute. auto. Qed.

(** Nothing tells equal grains of one class apart: neither an attribute nor a list, nor a comparison. *)
Theorem C66_attributes : forall a b, meta_ok a -> meta_ok b -> grain_eq a (OGrain b) = Ok true -> o_class a = o_class b ->
  (forall n, n <> $"length" -> both_read equal_values (getattr a n) (getattr b n)) /\
  both_read (Forall2 equal_dicts) (labels a) (labels b) /\ both_read (Forall2 equal_values) (offsets a) (offsets b) /\ both_read (Forall2 equal_values) (event_entries a) (event_entries b) /\
  (o_wait a = o_wait b \/ get_data a <> Ok None -> getattr a $"length" = getattr b $"length").
Proof. exact attributes_alike. Qed.
Print Assumptions C66_attributes.
Theorem C66_class : forall a b, meta_ok a -> meta_ok b -> grain_eq a (OGrain b) = Ok true -> class_for (o_meta a) = Ok (o_class a) -> class_for (o_meta b) = Ok (o_class b) -> o_class a = o_class b.
Proof. exact class_alike. Qed.
Print Assumptions C66_class.
Theorem C66_compared : forall psnr opts a b r, no_matchers opts -> meta_ok a -> meta_ok b -> stored_ok a -> stored_ok b -> no_nan a -> grain_eq a (OGrain b) = Ok true -> o_class a = o_class b ->
  o_wait a = o_wait b \/ get_data a <> Ok None -> compare_grain psnr opts a b = Ok r -> r_equal r = true.
Proof. exact equal_compared. Qed.
Print Assumptions C66_compared.
Example C66_attributes_ex : getattr ex_coded $"coded_width" = Ok (PInt 16) /\ getattr pr_turned $"coded_width" = Ok (PFrac 16 1) /\ getattr ex_coded $"topic" = Err EAttr /\ getattr pr_turned $"topic" = Err EAttr /\
  class_for (o_meta pr_turned) = Ok KCodedVideo /\ verdict (compare_grain no_psnr [] ex_coded pr_turned) = Ok true /\ verdict (compare_grain no_psnr [Include $"creation_timestamp"] pr_turned ex_coded) = Ok true.
Proof. vm_compute. auto 8. Qed.
(** But for the length said of a payload that is yet to come. *)
Theorem C66_length_refuted : ~ (forall a b, meta_ok a -> meta_ok b -> grain_eq a (OGrain b) = Ok true -> o_class a = o_class b -> both_read equal_values (getattr a $"length") (getattr b $"length")).
Proof.
  intros H. destruct (H (pr_wait 3) (pr_wait 5)) as [(u & v & U & V & E)|(e & E & _)]; try (apply pr_waits_ok; auto); try (vm_compute; reflexivity).
  - vm_compute in U. vm_compute in V. injection U as <-. injection V as <-. vm_compute in E. discriminate E.
  - vm_compute in E. discriminate E.
Qed.
Print Assumptions C66_length_refuted.

(** Equal metadata is not enough for events: their payload is the text of the metadata, in order. *)
Theorem C66_events_refuted : ~ (forall a b, meta_ok a -> meta_ok b -> o_class a = KEvent -> o_class b = KEvent -> has_payload a -> has_payload b ->
  py_eq (PDict (o_meta a)) (PDict (o_meta b)) = true -> grain_eq a (OGrain b) = Ok true).
Proof.
  intros H. assert (P : has_payload pr_event1 /\ has_payload pr_event2) by (split; eexists; vm_compute; reflexivity). destruct P as [P Q].
  specialize (H pr_event1 pr_event2 (proj1 pr_events_ok) (proj2 pr_events_ok) eq_refl eq_refl P Q eq_refl). vm_compute in H. discriminate H.
Qed.
Print Assumptions C66_events_refuted.

(** Elements by position, slices, and the whole as a tuple of two. *)
Theorem C66_elements : forall a b i, get_data a = Ok b ->
  ((i = 0 \/ i = -2 -> pair_get a i = Ok (IMeta (o_meta a))) /\ (i = 1 \/ i = -1 -> pair_get a i = Ok (IData b)) /\ (i < -2 \/ 1 < i -> pair_get a i = Err EIndex)) /\
  as_tuple a = Ok [IMeta (o_meta a); IData b] /\ pair_len a = zlen [IMeta (o_meta a); IData b] /\ forall s, pair_slice a s = lslice [IMeta (o_meta a); IData b] s.
Proof. exact (fun a b i H => conj (elements a b i H) (whole a b H)). Qed.
Print Assumptions C66_elements.
Example C66_elements_ex : pair_get ex_coded (-1) = Ok (IData (Some [1; 2; 3])) /\ pair_get ex_coded 2 = Err EIndex /\ pair_slice ex_coded (mkSlice None None (Some (-1))) = Ok [IData (Some [1; 2; 3]); IMeta (o_meta ex_coded)] /\
  pair_slice ex_coded (mkSlice (Some 1) None None) = Ok [IData (Some [1; 2; 3])] /\ pair_slice ex_coded (mkSlice (Some 5) None None) = Ok [].
Proof. vm_compute. auto 6. Qed.

(** A copy is equal to what it was copied from, unless the payload was not there and an empty one came in its place. *)
Theorem C66_copies : forall now a b, faithful a -> o_class a <> KEvent -> meta_ok a -> copy_obj now a = Ok b ->
  grain_eq b (OGrain a) = Ok (match o_data a, o_class a with None, KVideo | None, KCodedVideo | None, KAudio | None, KCodedAudio => false | _, _ => true end).
Proof. exact copy_equals. Qed.
Print Assumptions C66_copies.
Example C66_copies_ex : match copy_obj 99 ex_coded, copy_obj 99 ex_waiting with Ok o, Ok p => grain_eq o (OGrain ex_coded) = Ok true /\ grain_eq p (OGrain ex_waiting) = Ok false | _, _ => False end.
Proof. vm_compute. auto. Qed.
(** A grain that was saved and read compares equal to what it was and is not equal to it: the time of creation is another. *)
Theorem C66_saved_refuted : ~ (forall a b, In b (sv_back 8 [a]) -> sv_compare 8 [] [a] = Ok (true, 1) -> grain_eq a (OGrain b) = Ok true).
Proof.
  intros H. assert (N : map (fun o => grain_eq sv_coded (OGrain o)) (sv_back 8 [sv_coded]) = [Ok false]) by (vm_compute; reflexivity).
  assert (C : sv_compare 8 [] [sv_coded] = Ok (true, 1)) by (vm_compute; reflexivity). pose proof (fun b I => H sv_coded b I C) as G. clear H C.
  destruct (sv_back 8 [sv_coded]) as [|b l]; [discriminate N|]. cbn [map] in N. rewrite (G b (or_introl eq_refl)) in N. discriminate N.
Qed.
Print Assumptions C66_saved_refuted.
(** Reading a time label is enough to make a grain differ from what it was. *)
Theorem C66_reading_refuted : ~ (forall a i, meta_ok a -> has_payload a -> grain_eq a (OGrain (fst (do_op Labels (LGet i) a))) = Ok true).
Proof.
  intros H. assert (P : has_payload pr_labelled) by (eexists; vm_compute; reflexivity). specialize (H pr_labelled 0 (proj1 pr_labels_ok) P). vm_compute in H. discriminate H.
Qed.
Print Assumptions C66_reading_refuted.

(** [has_data] and [bytes] see the payload of all grains but events. *)
Theorem C66_bytes : forall a, o_class a <> KEvent -> (has_data a = true <-> exists x, get_data a = Ok (Some x)) /\ forall x, to_bytes a = Ok x <-> get_data a = Ok (Some x).
Proof. exact stored_bytes. Qed.
Print Assumptions C66_bytes.
Example C66_bytes_ex : has_data ex_coded = true /\ to_bytes ex_coded = Ok [1; 2; 3] /\ has_data ex_waiting = false /\ to_bytes ex_waiting = Err EType.
Proof. vm_compute. auto. Qed.
Theorem C66_bytes_refuted : exists a x, o_class a = KEvent /\ meta_ok a /\ get_data a = Ok (Some x) /\ x <> [] /\ has_data a = false /\ to_bytes a = Err EType.
Proof.
  exists pr_event1. eexists. split; [reflexivity|]. split; [apply pr_events_ok|]. split; [vm_compute; reflexivity|]. split; [discriminate|]. vm_compute. auto.
Qed.
Print Assumptions C66_bytes_refuted.
