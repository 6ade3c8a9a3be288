(** Grains of which a GSF file keeps everything that a comparison looks at. *)
From Coq Require Import String.
From Verif Require Import Base PyValue GrainObj EventSpec Compare CompareSpec GrainGsfSpec.
Local Open Scope list_scope.

(** A label with the keys that are written and no other, its rate in lowest terms. *)
Definition plain_label (d : dict) : Prop :=
  exists tag c n m b, lowest n m n m /\
    d = [($"tag", PStr tag); ($"timelabel", PDict [($"frames_since_midnight", PInt c); ($"frame_rate_numerator", PInt n);
                                                   ($"frame_rate_denominator", PInt m); ($"drop_frame", PBool b)])].
Record kept_exactly (major : Z) (o : gobj) : Prop := {
  ke_times : major = 7 -> forall n t, In n [$"origin_timestamp"; $"sync_timestamp"] -> getattr o n = Ok (PTime t) -> 0 <= t;
  ke_labels : forall l, labels o = Ok l -> Forall plain_label l;
  ke_numbers : forall n v, In n (number_names (o_class o)) -> n <> $"extension" -> getattr o n = Ok v -> exists z, whole v z;
  ke_key : o_class o = KCodedVideo -> major < 9 -> getattr o $"is_key_frame" <> Ok PNone;
  ke_temporal : o_class o = KCodedVideo -> forall v, getattr o $"temporal_offset" = Ok v ->
    v = PNone /\ 9 <= major \/ exists z, whole v z /\ (9 <= major -> z <> 2147483647);
  ke_data : match o_class o with KEvent => True | KGrain => o_data o <> Some [] | _ => o_data o <> None end;
  ke_event : o_class o = KEvent -> forall p, shows o p -> Forall (fun e : entry => forall k, known k = false -> e k = None) (p_entries p) }.
(** No expectations, no PSNR, and the time of creation left out. *)
Definition plain_options (opts : list copt) : Prop := no_matchers opts /\ ~ In (Include $"creation_timestamp") opts.
(** Grains that a comparison can look at, and that a file of this version keeps. *)
Definition comparable psnr (opts : list copt) (major : Z) (o : gobj) : Prop :=
  kept_exactly major o /\ of_own_type o /\ meta_ok o /\ stored_ok o /\ no_nan o /\ can_compare psnr opts o o.
(** All that a comparison reads from a grain. *)
Definition reads_alike (b c : gobj) : Prop :=
  (forall n, getattr b n = getattr c n) /\ labels b = labels c /\ event_entries b = event_entries c /\ offsets b = offsets c /\ get_data b = get_data c.
(** The payload is there, or there is none and none is to come. *)
Definition payload_here (o : gobj) : Prop := o_data o <> None \/ o_class o = KGrain /\ o_wait o = None.
