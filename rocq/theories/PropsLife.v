(** C67: what is true of every grain, however it was made and changed. *)
From Coq Require Import String.
From Verif Require Import Base GsfDecode PyValue PyList GrainObj Event Lists GrainSet GrainSetSpec GrainSetMain GrainCopy GrainGsf Compare CompareSpec CompareLaws CompareExample GrainPair GrainPairSpec GrainPairMain
  LifeSpec LifeRead LifeMain LifeLaws GrainSetSpec GrainSetExample LifeExample.
Local Open Scope list_scope.

(** Whatever is done to a grain, its metadata stays a dictionary of sound values with each key once and the parts of its class in place, and its payload stays bytes. *)
Theorem C67_kept : forall o, lives o -> meta_ok o /\ stored_ok o /\ shaped o.
Proof. exact lives_good. Qed.
Print Assumptions C67_kept.
Theorem C67_payload : forall o b, lives o -> get_data o = Ok (Some b) -> bytes_ok b.
Proof. exact lives_payload. Qed.
Print Assumptions C67_payload.
Example C67_kept_ex : lives lf_copy /\ getattr lf_copy $"is_key_frame" = Ok PNone /\ offsets lf_copy = Ok [PInt 2] /\ rbind (labels lf_copy) (fun l => Ok (zlen l)) = Ok 2 /\
  rbind (rbind (labels lf_copy) (fun l => lget l 1)) label_rate = Ok (PFrac 50 1) /\ get_data lf_copy = Ok (Some [7; 8; 9]) /\ snd (do_op Offsets (LSet 9 PNone) lf_cut) = Err EIndex.
Proof. split; [apply lf_copy_lives|]. vm_compute. auto 8. Qed.
(** The items of any file at all, sound or not, as far as it can be read: their rates are fractions and their payloads bytes. *)
Theorem C67_items : forall k f s l s' out, bytes_ok (GsfPrim.f_data f) -> decode_file k f = Ok (s, (l, s', out)) ->
  Forall (fun i => (GsfPrim.rat_ok (m_rate (i_meta i)) /\ GsfPrim.rat_ok (m_dur (i_meta i))) /\ forall b, i_data i = PBytes b -> bytes_ok b) l.
Proof. exact decoded_items. Qed.
Print Assumptions C67_items.
Example C67_items_ex : match decode_file (mkCfg None LoadImmediately true true true false) (GsfPrim.mkFile lf_damaged 0 false false) with
  | Ok (_, (l, _, Done)) => map (fun i => (m_rate (i_meta i), i_data i)) l | _ => [] end =
  [((25, 1), PBytes [1; 2; 3; 4; 5; 6; 7; 8; 9; 10; 11; 12; 13; 14; 15; 16]); ((25, 1), PBytes [7; 8; 9]); ((25, 1), PBytes [123; 34; 116])].
Proof. vm_compute. reflexivity. Qed.

(** So the laws of the other properties hold of every grain: of assignment (C54), comparison (C45) and equality (C66). *)
Theorem C67_assigned : forall o n so v, lives o -> dget n (sorts (o_class o)) = Some so -> sayable so v -> exists eff, accepts so v eff /\
  match eff with
  | Refused e => set_attr n v o = Err e
  | Reads r => exists o', set_attr n v o = Ok o' /\ lives o' /\ untouched o o' /\
      forall m, dget m (sorts (o_class o)) <> None -> getattr o' m = if same_attr n m then r else getattr o m
  end.
Proof. exact lives_assigned. Qed.
Print Assumptions C67_assigned.
Theorem C67_compared : forall psnr opts a b r, no_matchers opts -> lives a -> lives b -> compare_grain psnr opts a b = Ok r ->
  (exists r', compare_grain psnr opts b a = Ok r' /\ r_equal r' = r_equal r) /\ (a = b -> no_nan a -> r_equal r = true).
Proof. exact lives_compared. Qed.
Print Assumptions C67_compared.
Theorem C67_equal : forall a b c, lives a -> lives b -> lives c ->
  (grain_eq a (OGrain b) = Ok true <-> alike a b) /\ (has_payload a -> grain_eq a (OGrain a) = Ok true) /\
  (has_payload a -> has_payload b -> grain_eq a (OGrain b) = grain_eq b (OGrain a)) /\
  (grain_eq a (OGrain b) = Ok true -> grain_eq b (OGrain c) = Ok true -> grain_eq a (OGrain c) = Ok true).
Proof. exact lives_equal. Qed.
Print Assumptions C67_equal.
Example C67_equal_ex : grain_eq lf_copy (OGrain lf_copy) = Ok true /\ grain_eq lf_copy (OGrain lf_failed) = Ok true /\ grain_eq lf_copy (OGrain lf_named) = Ok false /\
  verdict (compare_grain no_psnr [] lf_copy lf_failed) = Ok true /\ verdict (compare_grain no_psnr [] lf_copy lf_named) = Ok false /\
  rbind (set_attr $"temporal_offset" (PInt 5) lf_copy) (fun o => getattr o $"temporal_offset") = Ok (PInt 5).
Proof. vm_compute. auto 7. Qed.

(** That the class is the one of the type is not among these. *)
Theorem C67_type_refuted : ~ (forall o, lives o -> class_for (o_meta o) = Ok (o_class o)).
Proof. intros H. specialize (H lf_typed lf_typed_lives). vm_compute in H. discriminate H. Qed.
Print Assumptions C67_type_refuted.
