(** Property theorems about grains that were saved or copied and then compared with what they were: C60. *)
From Coq Require Import String.
From Verif Require Import Base GsfPrim GsfDecode CogEnums GsfEncode GsfSpec GsfFileSpec GsfEncState GsfEncSpec GsfEncDecodeSpec PyValue Json GrainObj BuildSpec Event EventSpec
  Compare CompareSpec CompareExample GrainGsf GrainGsfSpec GrainGsfFileSpec GrainGsfExample GrainSet GrainSetSpec GrainSetExample GrainCopy GrainCopySpec SavedSpec SavedMain SavedExample.
Local Open Scope list_scope.

(** A grain that survived compares equal to what it was, if a file keeps all of it. *)
Theorem C60_survived : forall psnr key opts major now o o',
  survives major now o o' -> (o_class o = KEvent -> exists p, shows o p /\ event_survives o o' p) -> kept_exactly major o -> of_own_type o -> plain_options opts ->
  meta_ok o -> stored_ok o -> no_nan o -> can_compare psnr opts o o ->
  exists r, compare_with_key psnr key opts o o' = Ok r /\ r_equal r = true.
Proof. exact saved. Qed.
Print Assumptions C60_survived.
Example C60_survived_ex : comparable no_psnr [] 8 sv_coded /\ comparable no_psnr [] 8 ob_event.
Proof. split; [exact sv_coded_ok|exact sv_event_ok]. Qed.

(** A whole file: what is read from it compares equal, pair by pair, to what was written. *)
Theorem C60_file : forall psnr opts os gs seg_id stags major minor id created,
  (major = 7 \/ major = 8 \/ major = 9) -> u16 minor -> uuid_ok id -> dt_valid created = true ->
  uuid_ok seg_id -> Forall tag_fits stags -> i64 (zlen gs) ->
  zlen (enc_head id created [(mkESeg 1 seg_id None stags, 0)] []) < 4294967296 ->
  Forall (grain_fits major) (map (pair 1) gs) -> Forall2 writable os gs -> plain_options opts -> Forall (comparable psnr opts major) os ->
  exists data, GsfEncState.dumps gs seg_id stags major minor id created false = Ok data /\
    forall k strict fwd now, at_once k -> k_ids k = None ->
    exists s l os' r, decode_file k (mkFile data 0 strict fwd) = Ok (s, (l, s, Done)) /\ map_res (item_object now data) l = Ok os' /\
      compare_grains_pairwise psnr false opts os os' = Ok (r, zlen os) /\ r_equal r = true.
Proof. exact file_equal. Qed.
Print Assumptions C60_file.
Example C60_file_ex : sv_compare 8 [] [ob_video; sv_coded; ob_event; ob_empty] = Ok (true, 4) /\ sv_compare 9 [] [sv_unknown] = Ok (true, 1) /\ sv_compare 8 [] [sv_early] = Ok (true, 1).
Proof. vm_compute. repeat split. Qed.

(** Not every grain: a rate that is not in lowest terms, no word about a key frame before version 9, a time before the epoch in version 7; and
    not when asked to look at the time of creation. *)
Theorem C60_any_refuted : sv_compare 8 [] [ob_coded] = Ok (false, 1) /\ sv_compare 8 [] [sv_unknown] = Ok (false, 1) /\ sv_compare 7 [] [sv_early] = Ok (false, 1) /\
  sv_compare 8 [Include $"creation_timestamp"] [ob_video] = Ok (false, 1).
Proof. vm_compute. repeat split. Qed.
Print Assumptions C60_any_refuted.

(** A comparison with a copy is a comparison with the grain itself. *)
Theorem C60_copies : forall psnr opts now o o', faithful o -> o_class o <> KEvent -> payload_here o -> copy_obj now o = Ok o' -> (forall p m, ~ In (OPsnr p m) opts) ->
  forall a, compare_grain psnr opts a o' = compare_grain psnr opts a o.
Proof. exact copies_equal. Qed.
Print Assumptions C60_copies.
Theorem C60_copy : forall psnr opts now o o' r, faithful o -> o_class o <> KEvent -> payload_here o -> copy_obj now o = Ok o' -> no_matchers opts -> meta_ok o -> stored_ok o -> no_nan o ->
  compare_grain psnr opts o o = Ok r -> compare_grain psnr opts o o' = Ok r /\ r_equal r = true.
Proof. exact copy_equal. Qed.
Print Assumptions C60_copy.
Example C60_copy_ex : match copy_obj 99 ob_coded with Ok o' => verdict (compare_grain no_psnr [] ob_coded o') = Ok true | Err _ => False end.
Proof. vm_compute. reflexivity. Qed.
(** Not so when the payload has yet to come: the copy has an empty one and awaits nothing. *)
Theorem C60_waiting_refuted : match copy_obj 99 ex_waiting with Ok o' => verdict (compare_grain no_psnr [] ex_waiting o') = Ok false | Err _ => False end.
Proof. vm_compute. reflexivity. Qed.
Print Assumptions C60_waiting_refuted.
