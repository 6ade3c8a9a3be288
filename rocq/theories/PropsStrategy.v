(** C63: random grains for tests. *)
From Coq Require Import String.
From Verif Require Import Base GsfPrim GsfDecode GsfEncode GsfSpec GsfFileSpec GsfEncState GsfEncDecodeSpec PyValue CogEnums GrainObj Compare CompareSpec GrainGsf GrainGsfSpec GrainGsfFileSpec GrainCopySpec GrainSetSpec SavedSpec
  PyValue GrainObj Tools Strategies StrategySpec StrategyArgs StrategyDraw StrategyData StrategyCompared StrategyMain StrategyTexts StrategyExample.
From Verif Require CompareExample SavedExample.
Local Open Scope list_scope.

(** What is asked for with an argument is what is drawn, but for two arguments that are not passed on. *)
Theorem C63_honoured : forall t args now o n a, can_be t args now (Ok o) -> dget n args = Some a -> sensible n a -> n <> $"format" ->
  ~ (t = $"coded_audio" /\ n = $"creation_timestamp") -> honoured o n a.
Proof. exact arguments_honoured. Qed.
Print Assumptions C63_honoured.
Example C63_honoured_ex : can_be $"video" sx_args 99 (Ok sx_video) /\ getattr sx_video $"width" = Ok (PInt 3) /\ getattr sx_video $"height" = Ok (PInt 2) /\ getattr sx_video $"rate" = Ok (PFrac 50 1).
Proof. split; [exact sx_video_drawn|]. vm_compute. repeat split. Qed.
(** A format that is asked for is not what is drawn. *)
Theorem C63_format_refuted : can_be $"audio" [($"format", Value (PInt 0xa))] 99 (Ok sx_audio) /\ getattr sx_audio $"format" = Ok (PInt 0).
Proof. split; [exact sx_audio_drawn|]. vm_compute. reflexivity. Qed.
Print Assumptions C63_format_refuted.
(** Nor is a time of creation of a coded audio grain. *)
Theorem C63_creation_refuted : can_be $"coded_audio" [($"creation_timestamp", Value (PTime 5))] 99 (Ok sx_coded_audio) /\ getattr sx_coded_audio $"creation_timestamp" = Ok (PTime (-5)).
Proof. split; [exact sx_coded_audio_drawn|]. vm_compute. reflexivity. Qed.
Print Assumptions C63_creation_refuted.
(** An event grain whose origin timestamp is not to be set cannot be drawn. *)
Theorem C63_donotset_refuted : exists l d, grains $"event" [($"origin_timestamp", DoNotSet)] = Ok l /\ drawn l d /\ build $"event" 99 d = Err EType.
Proof. exact sx_donotset. Qed.
Print Assumptions C63_donotset_refuted.

(** Without arguments: always a grain, of the type asked for, with attributes in the documented ranges and a payload of zeros of the right length. *)
Theorem C63_documented : forall t now r, In t grain_types -> can_be t [] now r -> exists o, r = Ok o /\ as_documented t o.
Proof. exact drawn_documented. Qed.
Print Assumptions C63_documented.
Example C63_documented_ex : can_be $"event" [] 99 (Ok sx_event) /\ can_be $"coded_video" [] 99 (Ok sx_coded) /\ event_entries sx_event = Ok [sx_entry; sx_entry] /\ getattr sx_coded $"origin_height" = Ok (PInt 135).
Proof. split; [exact sx_event_drawn|]. split; [exact sx_coded_drawn|]. vm_compute. repeat split. Qed.
(** But the format of a coded grain can be unknown, and the offsets of its units are in no order. *)
Theorem C63_coded_refuted : can_be $"coded_video" [] 99 (Ok sx_coded) /\ getattr sx_coded $"cog_frame_format" = Ok (PInt 0xfffffffe) /\ offsets sx_coded = Ok [PInt 5; PInt 3].
Proof. split; [exact sx_coded_drawn|]. vm_compute. repeat split. Qed.
Print Assumptions C63_coded_refuted.

(** With data: always a grain, of that type, with as many bytes as there should be, none of its samples NaN, and that can be written to a file. *)
Theorem C63_data : forall t now r, In t grain_types -> can_be_with_data t now r -> exists o, r = Ok o /\ o_class o = class_of t /\ filled o /\ no_nan o /\ exists g, writable o g.
Proof. exact with_data. Qed.
Print Assumptions C63_data.
Example C63_data_ex : can_be_with_data $"audio" 99 (Ok sx_float) /\ get_data sx_float = Ok (Some [0; 0; 128; 63; 0; 0; 0; 0]) /\ expected_length sx_float = Ok 8.
Proof. split; [exact sx_float_drawn|]. vm_compute. repeat split. Qed.
(** Every payload of that length, unless the samples are floats. *)
Theorem C63_any_payload : forall t now o b x, t = $"audio" \/ t = $"video" -> can_be_with_data t now (Ok o) -> o_data o = Some x -> bytes_ok b -> zlen b = zlen x -> ~ float_samples o ->
  can_be_with_data t now (Ok (mkO (o_class o) (o_meta o) (Some b) None)).
Proof. exact any_payload. Qed.
Print Assumptions C63_any_payload.
Example C63_any_payload_ex : can_be_with_data $"audio" 99 (Ok (sx_16 [1; 2; 3; 4])) /\ o_data (sx_16 [1; 2; 3; 4]) = Some [1; 2; 3; 4] /\
  mkO (o_class (sx_16 [1; 2; 3; 4])) (o_meta (sx_16 [1; 2; 3; 4])) (Some [9; 8; 7; 6]) None = sx_16 [9; 8; 7; 6].
Proof. split; [apply sx_16_drawn; reflexivity|]. vm_compute. repeat split. Qed.
(** The payload of a coded grain is always empty. *)
Theorem C63_coded_data_refuted : forall t now o, t = $"coded_audio" \/ t = $"coded_video" -> can_be_with_data t now (Ok o) -> get_data o = Ok (Some []).
Proof. exact coded_empty. Qed.
Print Assumptions C63_coded_data_refuted.
Example C63_coded_data_refuted_ex : can_be_with_data $"coded_video" 99 (Ok (sx_with $"coded_video" (sx_coded_args 16 9) [])).
Proof. exact sx_coded_data_drawn. Qed.
(** A template is copied but for its payload. *)
Theorem C63_template : forall now o b x, made o -> of_own_type o -> o_class o <> KEvent -> o_data o = Some x -> o_wait o = None ->
  with_payload now o b = Ok (mkO (o_class o) (o_meta o) (Some b) None).
Proof. exact payload_set. Qed.
Print Assumptions C63_template.
Example C63_template_ex : with_payload 100 sx_float [7; 7] = Ok (mkO KAudio (o_meta sx_float) (Some [7; 7]) None).
Proof. vm_compute. reflexivity. Qed.

(** Grains drawn with data, saved and read back, compare equal to what they were. *)
Theorem C63_saved : forall psnr opts os seg_id stags major minor id created,
  Forall some_drawn os -> Forall (fits_version major) os -> plain_options opts -> (major = 7 \/ major = 8 \/ major = 9) ->
  u16 minor -> uuid_ok id -> dt_valid created = true -> uuid_ok seg_id -> Forall tag_fits stags -> i64 (zlen os) ->
  zlen (enc_head id created [(mkESeg 1 seg_id None stags, 0)] []) < 4294967296 ->
  exists gs, Forall2 writable os gs /\
    (Forall (grain_fits major) (map (pair 1) gs) -> exists data, GsfEncState.dumps gs seg_id stags major minor id created false = Ok data /\
      forall k strict fwd now, at_once k -> k_ids k = None ->
      exists s l os' r, decode_file k (mkFile data 0 strict fwd) = Ok (s, (l, s, Done)) /\ map_res (item_object now data) l = Ok os' /\
        compare_grains_pairwise psnr false opts os os' = Ok (r, zlen os) /\ r_equal r = true).
Proof. exact drawn_files. Qed.
Print Assumptions C63_saved.
Example C63_saved_ex : Forall some_drawn [sx_float; sx_16 [1; 2; 3; 4]] /\ SavedExample.sv_compare 8 [] [sx_float; sx_16 [1; 2; 3; 4]] = Ok (true, 2).
Proof. split; [exact sx_both|]. vm_compute. reflexivity. Qed.

(** Two grains drawn with data that differ in nothing else compare equal only if their payloads are the same. *)
Theorem C63_distinct : forall psnr opts t now now' o o' r, In t grain_types -> can_be_with_data t now (Ok o) -> can_be_with_data t now' (Ok o') -> o_meta o = o_meta o' ->
  no_matchers opts -> ~ waived opts (path $"data") -> ~ packed24 o -> compare_grain psnr opts o o' = Ok r -> r_equal r = true <-> o = o'.
Proof. exact distinct. Qed.
Print Assumptions C63_distinct.
Example C63_distinct_ex : can_be_with_data $"audio" 99 (Ok (sx_16 [1; 2; 3; 4])) /\ can_be_with_data $"audio" 99 (Ok (sx_16 [1; 2; 3; 5])) /\
  CompareExample.verdict (compare_grain CompareExample.no_psnr [] (sx_16 [1; 2; 3; 4]) (sx_16 [1; 2; 3; 5])) = Ok false.
Proof. split; [apply sx_16_drawn; reflexivity|]. split; [apply sx_16_drawn; reflexivity|]. vm_compute. reflexivity. Qed.
(** Not so with samples of 24 bits. *)
Theorem C63_distinct_refuted : can_be_with_data $"audio" 99 (Ok (sx_24 [1; 2; 3; 0])) /\ can_be_with_data $"audio" 99 (Ok (sx_24 [1; 2; 3; 9])) /\
  get_data (sx_24 [1; 2; 3; 0]) <> get_data (sx_24 [1; 2; 3; 9]) /\
  CompareExample.verdict (compare_grain CompareExample.no_psnr [] (sx_24 [1; 2; 3; 0]) (sx_24 [1; 2; 3; 9])) = Ok true.
Proof. split; [apply sx_24_drawn; reflexivity|]. split; [apply sx_24_drawn; reflexivity|]. split; [vm_compute; discriminate|]. vm_compute. reflexivity. Qed.
Print Assumptions C63_distinct_refuted.

(** What types, topics and entries the events have: exactly these. *)
Theorem C63_events : forall now kind topic es,
  (exists o, can_be $"event" [] now (Ok o) /\ event_of o kind topic es) <-> is_urn kind /\ is_topic topic /\ Forall some_entry es.
Proof. exact events. Qed.
Print Assumptions C63_events.
Example C63_events_ex : event_of sx_event $"urn:x-ipstudio:format:event.a" $"b" [sx_entry; sx_entry] /\
  is_urn ($"urn:" ++ repeat 97 32 ++ $":b") /\ matches type_regex ($"urn:" ++ repeat 97 33 ++ $":b") = false /\ is_time_text $"-12:345".
Proof.
  split; [repeat split; vm_compute; reflexivity|]. split; [apply type_iff; vm_compute; reflexivity|]. split; [vm_compute; reflexivity|]. apply time_iff. vm_compute. reflexivity.
Qed.

(** Rates and durations that are drawn are fractions in lowest terms from 0 to 200. *)
Theorem C63_rates : forall t now o n, In t grain_types -> can_be t no_rates now (Ok o) -> In n [$"rate"; $"duration"] ->
  exists a b v, getattr o n = Ok v /\ py_eq (PFrac a b) v = true /\ 0 < b /\ Z.gcd a b = 1 /\ 0 <= a <= 200 * b.
Proof. exact rates. Qed.
Print Assumptions C63_rates.
Example C63_rates_ex : can_be $"audio" no_rates 99 (Ok sx_rated) /\ getattr sx_rated $"rate" = Ok (PFrac 30000 1001).
Proof. split; [exact sx_rated_drawn|vm_compute; reflexivity]. Qed.
