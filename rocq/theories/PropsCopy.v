(** C55: copying grain objects. *)
From Coq Require Import String Lia.
From Verif Require Import Base PyValue CogEnums GrainObj BuildSpec Event EventSpec GrainSet GrainSetSpec GrainSetExample GrainCopy GrainCopySpec GrainCopyProofs GrainCopyMade GrainCopyMain GrainCopyApart GrainCopyExample.
Local Open Scope list_scope.

(** What every constructor makes can be built again from its own metadata, and stays so under assignment. *)
Theorem C55_made : forall o, made o -> (o_class o = KGrain -> class_for (o_meta o) = Ok KGrain) -> faithful o.
Proof. exact made_faithful. Qed.
Print Assumptions C55_made.
Theorem C55_assigned : forall o n so v o', shaped o -> faithful o -> n <> $"grain_type" -> dget n (sorts (o_class o)) = Some so -> set_attr n v o = Ok o' -> faithful o'.
Proof. exact assignment_faithful. Qed.
Print Assumptions C55_assigned.
Example C55_made_ex : faithful ex_coded /\ faithful ex_waiting /\ faithful (ex_object (set_attr $"coded_width" (PStr $"wide") ex_coded)) /\ ~ faithful ex_renamed.
Proof.
  assert (F : faithful ex_coded) by (apply C55_made; [exact (made_coded_video 5 ex_kw H264 16 8 None None (Some true) (Some 3) None 0 (Some [0; 4]) (ABytes [1; 2; 3]) ex_coded eq_refl)|intros K; vm_compute in K; discriminate K]).
  split; [exact F|]. split; [apply C55_made; [exact (made_audio 5 ex_kw 2 4 1 48000 AWait ex_waiting eq_refl)|intros K; vm_compute in K; discriminate K]|]. split.
  - refine (C55_assigned ex_coded $"coded_width" Anything (PStr $"wide") _ _ F _ _ _); try (vm_compute; reflexivity); [|vm_compute; discriminate].
    assert (K : o_class ex_coded = KCodedVideo) by (vm_compute; reflexivity). unfold shaped. rewrite K. cbn [part_of]. eexists. split; [vm_compute; reflexivity|]. eexists. split; [vm_compute; reflexivity|]. cbn [map fst]. repeat (constructor; [intros H; repeat (destruct H as [H|H]; [vm_compute in H; discriminate H|]); exact H|]). constructor.
  - intros [C _]. vm_compute in C. discriminate C.
Qed.

(** A copy, deep or shallow, has the class, the metadata and the payload of the original. *)
Theorem C55_copy : forall now o, faithful o -> o_class o <> KEvent -> copy_obj now o = Ok (copied o) /\ (forall b, o_data o = Some b -> o_wait o = None -> copied o = o).
Proof. exact copy_same. Qed.
Print Assumptions C55_copy.
Example C55_copy_ex : copy_obj 99 ex_coded = Ok ex_coded /\ copied ex_coded = ex_coded /\ getattr ex_coded $"creation_timestamp" = Ok (PTime 900).
Proof. vm_compute. auto. Qed.

(** Events are copied through their JSON: what is left is what JSON and the three keys of an entry carry. *)
Theorem C55_event : forall now o p, faithful o -> o_class o = KEvent -> shows o p -> payload_json_ok p -> Forall (fun e : entry => e $"path" <> None) (p_entries p) ->
  exists o' p', copy_obj now o = Ok o' /\ shows o' p' /\ same_payload p p' /\ same_but_payload (mkO KEvent (o_meta o) None None) o'.
Proof. exact copy_event. Qed.
Print Assumptions C55_event.
Example C55_event_ex : (exists o', copy_obj 5 ex_odd_event = Ok o' /\ event_entries o' = Ok [PDict [($"path", PStr $"/x"); ($"pre", PInt 1)]]) /\ copy_obj 5 ex_no_path = Err EKey.
Proof. split; [eexists; split; [vm_compute; reflexivity|vm_compute; reflexivity]|vm_compute; reflexivity]. Qed.

(** Copies of copies, assignments, new payloads and payloads changed in place, in any order: the grains in memory are those of a
    family in which shallow copies have the metadata and the payload in common with the original and deep copies nothing. *)
Theorem C55_family : forall o ops, faithful o -> shaped o -> o_class o <> KEvent -> cops_ok (o_class o) 1 ops ->
  views (fst (do_cops ops (alone o))) = map t_obj (f_twins (fst (family_steps ops (one o)))) /\ snd (do_cops ops (alone o)) = snd (family_steps ops (one o)).
Proof. exact copies_are_family. Qed.
Print Assumptions C55_family.
Example C55_family_ex : cops_ok KCodedVideo 1 ex_cops /\ let '(s, rs) := do_cops ex_cops (alone ex_coded) in
  rs = [Ok tt; Ok tt; Ok tt; Ok tt; Ok tt; Ok tt; Ok tt; Err EIndex; Err EType; Ok tt] /\
  map (fun o => (getattr o $"coded_width", getattr o $"temporal_offset", get_data o)) (views s) =
  [(Ok (PInt 99), Ok (PInt 3), Ok (Some [1; 200; 3])); (Ok (PInt 99), Ok (PInt 3), Ok (Some [77; 4]));
   (Ok (PInt 16), Ok PNone, Ok (Some [1; 2; 3])); (Ok (PInt 99), Ok (PInt 3), Ok (Some [77; 4]))].
Proof. split; [|vm_compute; auto]. unfold ex_cops. repeat (split; [cbn [cop_index]; lia|split; [first [exact I|split; vm_compute; discriminate]|]]). exact I. Qed.

(** Whatever is done to a deep copy, and to copies of it, the original does not change; and the other way round. *)
Theorem C55_deep : forall o now ops, faithful o -> shaped o -> o_class o <> KEvent -> cops_ok (o_class o) 2 ops ->
  (Forall (fun op => cop_index op <> 0%nat) ops -> nth 0 (views (fst (do_cops (ODeep 0 now :: ops) (alone o)))) (t_obj nobody) = o) /\
  (Forall (fun op => cop_index op <> 1%nat) ops -> nth 1 (views (fst (do_cops (ODeep 0 now :: ops) (alone o)))) (t_obj nobody) = copied o).
Proof. exact deep_apart. Qed.
Print Assumptions C55_deep.
Example C55_deep_ex : let s := fst (do_cops [ODeep 0 7; OSet 1 $"coded_width" (PInt 99); OPoke 1 0 5; OCopy 1 7; OSet 2 $"rate" (PInt 5)] (alone ex_coded)) in
  nth 0 (views s) (t_obj nobody) = ex_coded /\ map (fun o => getattr o $"rate") (views s) = [Ok (PFrac 25 1); Ok (PFrac 5 1); Ok (PFrac 5 1)].
Proof. vm_compute. auto. Qed.
(** A shallow copy: what is assigned to the copy is assigned to the original, but for the payload. *)
Theorem C55_shallow : forall o now n v, faithful o -> shaped o -> o_class o <> KEvent -> n <> $"grain_type" -> dget n (sorts (o_class o)) <> None ->
  views (fst (do_cops [OCopy 0 now; OSet 1 n v] (alone o))) = [assign n v o; assign n v (copied o)].
Proof. exact shallow_shared. Qed.
Print Assumptions C55_shallow.
Theorem C55_payload : forall o now a, faithful o -> shaped o -> o_class o <> KEvent ->
  views (fst (do_cops [OCopy 0 now; OData 1 a] (alone o))) = [o; match set_data a (copied o) with Ok o' => o' | Err _ => copied o end].
Proof. exact payload_apart. Qed.
Print Assumptions C55_payload.
Example C55_shallow_ex : map (fun o => getattr o $"source_id") (views (fst (do_cops [OCopy 0 7; OSet 1 $"src_id" (PUuid 33)] (alone ex_coded)))) = [Ok (PUuid 33); Ok (PUuid 33)] /\
  map get_data (views (fst (do_cops [OCopy 0 7; OData 1 ANone] (alone ex_coded)))) = [Ok (Some [1; 2; 3]); Ok None].
Proof. vm_compute. auto. Qed.

(** Copying a grain whose payload has not been loaded: the copy has an empty payload, and no way to load it. *)
Theorem C55_lazy_refuted : ~ (forall now o o', made o -> faithful o -> copy_obj now o = Ok o' -> get_data o' = get_data o /\ o_wait o' = o_wait o).
Proof.
  intros H. destruct (H 5 ex_waiting (copied ex_waiting) (made_audio 5 ex_kw 2 4 1 48000 AWait ex_waiting eq_refl)) as [D _].
  - apply C55_made; [exact (made_audio 5 ex_kw 2 4 1 48000 AWait ex_waiting eq_refl)|intros K; vm_compute in K; discriminate K].
  - vm_compute. reflexivity.
  - vm_compute in D. discriminate D.
Qed.
Print Assumptions C55_lazy_refuted.
(** Making a shallow copy of an event takes keys away from the entries of the original. *)
Theorem C55_event_refuted : ~ (forall o now, o_class o = KEvent -> nth 0 (views (fst (do_cops [OCopy 0 now] (alone o)))) (t_obj nobody) = o).
Proof. intros H. specialize (H ex_odd_event 5 eq_refl). vm_compute in H. discriminate H. Qed.
Print Assumptions C55_event_refuted.
Example C55_event_refuted_ex : map event_entries (views (alone ex_odd_event)) = [Ok [PDict [($"path", PStr $"/x"); ($"pre", PInt 1); ($"note", PStr $"n")]]] /\
  map event_entries (views (fst (do_cops [OCopy 0 5] (alone ex_odd_event)))) = [Ok [PDict [($"path", PStr $"/x"); ($"pre", PInt 1)]]; Ok [PDict [($"path", PStr $"/x"); ($"pre", PInt 1)]]].
Proof. vm_compute. auto. Qed.
(** A grain whose type was assigned is copied into the class that type names. *)
Theorem C55_type_refuted : ~ (forall now o o', copy_obj now o = Ok o' -> o_class o' = o_class o).
Proof. intros H. assert (X : exists o', copy_obj 5 ex_renamed = Ok o' /\ o_class o' = KAudio) by (eexists; split; [vm_compute; reflexivity|reflexivity]). destruct X as (o' & C & K). specialize (H 5 ex_renamed o' C). rewrite K in H. vm_compute in H. discriminate H. Qed.
Print Assumptions C55_type_refuted.
