(** C54: assigning the attributes of grain objects. *)
From Coq Require Import String.
From Verif Require Import Base PyValue CogEnums GrainObj GrainSet GrainSetSpec GrainSetProofs GrainSetMain GrainSetShape GrainSetExample.
Local Open Scope list_scope.

(** An assignment to any attribute of any grain: what is refused, what is read afterwards under every name, and what stays. *)
Theorem C54_assignment : forall o n so v, shaped o -> dget n (sorts (o_class o)) = Some so -> sayable so v -> exists eff, accepts so v eff /\
  match eff with
  | Refused e => set_attr n v o = Err e
  | Reads r => exists o', set_attr n v o = Ok o' /\ shaped o' /\ untouched o o' /\
      forall m, dget m (sorts (o_class o)) <> None -> getattr o' m = if same_attr n m then r else getattr o m
  end.
Proof. exact assignment. Qed.
Print Assumptions C54_assignment.
Example C54_assignment_ex : exists o', set_attr $"temporal_offset" PNone ex_coded = Ok o' /\ getattr ex_coded $"temporal_offset" = Ok (PInt 3) /\
  getattr o' $"temporal_offset" = Ok PNone /\ getattr o' $"is_key_frame" = Ok (PBool true) /\ offsets o' = Ok [PInt 0; PInt 4].
Proof. eexists. split; [vm_compute; reflexivity|]. vm_compute. auto. Qed.

(** Histories of any length, refused assignments among them. *)
Theorem C54_history : forall l o, shaped o -> Forall (fun nv => exists so, dget (fst nv) (sorts (o_class o)) = Some so /\ sayable so (snd nv)) l ->
  exists effs o', set_all l o = (o', map (fun ne => outcome_of (snd ne)) effs) /\ Forall2 (effect_of (o_class o)) l effs /\ shaped o' /\ untouched o o' /\
    forall m, dget m (sorts (o_class o)) <> None -> getattr o' m = last_reading m effs (getattr o m).
Proof. exact assignments. Qed.
Print Assumptions C54_history.
Example C54_history_ex : let '(o, rs) := set_all ex_history ex_coded in
  rs = [Ok tt; Ok tt; Ok tt; Err EValue; Ok tt; Ok tt; Ok tt; Err EType; Ok tt; Err EUnsupported] /\
  map (getattr o) [$"source_id"; $"src_id"; $"temporal_offset"; $"rate"; $"origin_timestamp"; $"format"; $"is_key_frame"; $"source_aspect_ratio"; $"coded_width"] =
  [Ok (PUuid 9); Ok (PUuid 9); Ok PNone; Ok (PFrac 50 1); Ok (PTime 1000); Err EValue; Ok (PBool false); Ok (PFrac 16 9); Ok (PInt 16)].
Proof. vm_compute. auto. Qed.

(** Every constructor makes a grain of that shape. *)
Theorem C54_made : forall o, made o -> shaped o.
Proof. exact made_shaped. Qed.
Print Assumptions C54_made.
Example C54_made_ex : made ex_coded /\ o_class ex_coded = KCodedVideo /\ made ex_waiting /\ o_class ex_waiting = KAudio.
Proof.
  split; [|split; [reflexivity|split; [|reflexivity]]].
  - exact (made_coded_video 5 ex_kw H264 16 8 None None (Some true) (Some 3) None 0 (Some [0; 4]) (ABytes [1; 2; 3]) ex_coded eq_refl).
  - exact (made_audio 5 ex_kw 2 4 1 48000 AWait ex_waiting eq_refl).
Qed.

(** Assigning attributes leaves the payload and its length. *)
Theorem C54_length_stays : forall o o', untouched o o' -> o_class o <> KEvent -> get_data o' = get_data o /\ getattr o' $"length" = getattr o $"length".
Proof. exact length_stays. Qed.
Print Assumptions C54_length_stays.
Example C54_length_stays_ex : let '(o, _) := set_all ex_history ex_coded in getattr o $"length" = Ok (PInt 3) /\ get_data o = Ok (Some [1; 2; 3]).
Proof. vm_compute. auto. Qed.

(** Assigning the payload leaves the attributes. *)
Theorem C54_payload : forall o a, o_class o <> KEvent -> exists o', set_data a o = Ok o' /\ o_class o' = o_class o /\ o_meta o' = o_meta o /\ get_data o' = Ok (given a) /\
  (forall b, a = ABytes b -> getattr o' $"length" = Ok (PInt (zlen b))) /\ (a = ANone -> getattr o' $"length" = Ok (PInt 0)) /\
  forall m, dget m (sorts (o_class o)) <> None -> getattr o' m = getattr o m.
Proof. exact payload_assigned. Qed.
Print Assumptions C54_payload.
Example C54_payload_ex : exists o', set_data (ABytes [9; 9]) ex_waiting = Ok o' /\ get_data o' = Ok (Some [9; 9]) /\ o_wait o' = None /\ getattr o' $"samples" = Ok (PInt 4).
Proof. eexists. split; [reflexivity|]. vm_compute. auto. Qed.

(** The payload of an event is read when it is assigned, so only bytes can be. *)
Theorem C54_event_payload : forall o a o', o_class o = KEvent -> set_data a o = Ok o' -> exists b, a = ABytes b.
Proof. exact event_payload_assigned. Qed.
Print Assumptions C54_event_payload.
Example C54_event_payload_ex : match kw_event 5 ex_kw $"t" $"x" ANone with
  | Ok o => set_data ANone o = Err EAttr /\ set_data AWait o = Err EAttr /\
      rbind (set_data (ABytes (s2z "{""type"": ""t"", ""topic"": ""y"", ""data"": []}")) o) (fun o => getattr o $"topic") = Ok (PStr $"y")
  | Err _ => False end.
Proof. vm_compute. auto. Qed.

(** The length of an awaited payload can be said in advance, and of nothing else. *)
Theorem C54_length : forall o n o', set_length n o = Ok o' <-> get_data o = Ok None /\ o_wait o <> None /\ o' = mkO (o_class o) (o_meta o) None (Some n).
Proof. exact length_assigned. Qed.
Print Assumptions C54_length.
Theorem C54_length_reads : forall o n o', set_length n o = Ok o' -> getattr o' $"length" = Ok (PInt n) /\ get_data o' = Ok None /\
  forall m, dget m (sorts (o_class o)) <> None -> getattr o' m = getattr o m.
Proof. exact length_said. Qed.
Print Assumptions C54_length_reads.
Example C54_length_ex : set_length 8 ex_coded = Err EAttr /\ exists o', set_length 8 ex_waiting = Ok o' /\ getattr o' $"length" = Ok (PInt 8).
Proof. split; [vm_compute; reflexivity|]. eexists. split; [vm_compute; reflexivity|]. vm_compute. reflexivity. Qed.

(** Some assignments succeed although the attribute cannot be read afterwards. *)
Theorem C54_readable_refuted : exists o o1 o2, made o /\
  set_attr $"flow_id" PNone o = Ok o1 /\ getattr o1 $"flow_id" = Err EValue /\
  set_attr $"format" (PInt 1) o = Ok o2 /\ getattr o2 $"format" = Err EValue.
Proof.
  exists ex_still, (ex_object (set_attr $"flow_id" PNone ex_still)), (ex_object (set_attr $"format" (PInt 1) ex_still)).
  split; [exact (made_video 5 ex_kw S16_422_10BIT 2 2 0 ANone ex_still eq_refl)|]. vm_compute. auto.
Qed.
Print Assumptions C54_readable_refuted.
(** An aspect ratio reads as None at first, and cannot be made None again. *)
Theorem C54_aspect_refuted : exists o o1, made o /\ getattr o $"pixel_aspect_ratio" = Ok PNone /\ set_attr $"pixel_aspect_ratio" (PFrac 12 11) o = Ok o1 /\
  set_attr $"pixel_aspect_ratio" PNone o1 = Err EType /\ set_attr $"pixel_aspect_ratio" PNone o = Err EType.
Proof.
  exists ex_still, (ex_object (set_attr $"pixel_aspect_ratio" (PFrac 12 11) ex_still)).
  split; [exact (made_video 5 ex_kw S16_422_10BIT 2 2 0 ANone ex_still eq_refl)|]. vm_compute. auto.
Qed.
Print Assumptions C54_aspect_refuted.
