(** C44 to C47: comparing grains. *)
From Coq Require Import String.
From Verif Require Import Base PyValue Json CogEnums GrainObj Compare CompareSpec CompareProofs CompareTree CompareLaws CompareSym CompareExample.
Local Open Scope list_scope.

(** ** C44. A comparison is truthy exactly if the grains agree on what [grains_agree] lists, save what is waived. *)
Theorem C44_compare psnr opts a b r : stored_ok a -> stored_ok b -> compare_grain psnr opts a b = Ok r ->
  r_equal r = true <-> grains_agree psnr opts a b.
Proof. exact (grain_agree psnr opts a b r). Qed.
Print Assumptions C44_compare.
Example C44_compare_ex :
  verdict (compare_grain no_psnr [] (ex_s16 5 [1; 2; 3; 4]) (ex_s16 6 [1; 2; 3; 4])) = Ok true /\
  verdict (compare_grain no_psnr [Include $"creation_timestamp"] (ex_s16 5 [1; 2; 3; 4]) (ex_s16 6 [1; 2; 3; 4])) = Ok false /\
  verdict (compare_grain no_psnr [] (ex_s16 5 [1; 2; 3; 4]) (ex_s16 5 [1; 2; 3; 5])) = Ok false /\
  verdict (compare_grain no_psnr [Exclude $"data"] (ex_s16 5 [1; 2; 3; 4]) (ex_s16 5 [1; 2; 3; 5])) = Ok true /\
  verdict (compare_grain no_psnr [Exclude $"topic"] (ex_event $"a") (ex_event $"bc")) = Ok true /\
  verdict (compare_grain no_psnr [OExpect $"{}.origin_timestamp" (fun d => d =? -40); OExpect $"{}.sync_timestamp" (fun d => d <? 0)]
             (ex_audio 2 7 1000 5 [1; 2; 3; 4]) (ex_audio 2 7 1040 5 [1; 2; 3; 4])) = Ok true.
Proof. vm_compute. repeat split. Qed.

(** It goes through exactly if the attributes can be read and the payloads are whole words. *)
Theorem C44_total psnr opts a b : (exists r, compare_grain psnr opts a b = Ok r) <-> can_compare psnr opts a b.
Proof. exact (grain_total psnr opts a b). Qed.
Print Assumptions C44_total.
Example C44_total_ex : compare_grain no_psnr [Exclude $"data"] (ex_s16 5 [1; 2; 3]) (ex_s16 5 [1; 2; 3; 4]) = Err EStruct /\
  is_ok (compare_grain no_psnr [] (ex_s24 [1; 2; 3; 4]) (ex_s24 [1; 2])) = true.
Proof. vm_compute. split; reflexivity. Qed.

(** One more exclusion, at any place in the list: no exception where there was none and no mismatch where there was a match. *)
Theorem C44_exclusion psnr opts opts' p a b r : stored_ok a -> stored_ok b -> compare_grain psnr (opts ++ opts') a b = Ok r ->
  exists r', compare_grain psnr (opts ++ OExclude p :: opts') a b = Ok r' /\ (r_equal r = true -> r_equal r' = true).
Proof. exact (exclusion psnr opts opts' p a b r). Qed.
Print Assumptions C44_exclusion.
Example C44_exclusion_ex :
  verdict (compare_grain no_psnr [Exclude $"data"] (ex_s16 5 [1; 2; 3; 4]) (ex_s16 5 [1; 2; 3; 5])) = Ok true /\
  verdict (compare_grain no_psnr [Exclude $"flow_id"; Exclude $"data"] (ex_s16 5 [1; 2; 3; 4]) (ex_s16 5 [1; 2; 3; 5])) = Ok true /\
  verdict (compare_grain no_psnr [Exclude $"data"] (ex_s16 5 [1; 2]) (ex_audio 2 8 1000 5 [1; 2])) = Ok false /\
  verdict (compare_grain no_psnr [Exclude $"data"; Exclude $"flow_id"] (ex_s16 5 [1; 2]) (ex_audio 2 8 1000 5 [1; 2])) = Ok true.
Proof. vm_compute. repeat split. Qed.

(** With the formats excluded, grains of different formats match whatever their payloads. *)
Theorem C44_format_refuted : exists a b r, stored_ok a /\ stored_ok b /\ get_data a <> get_data b /\
  compare_grain no_psnr [Exclude $"format"] a b = Ok r /\ r_equal r = true.
Proof.
  exists (ex_s16 5 [1; 2; 3; 4]), (ex_s24 [9; 8; 7; 6]). eexists.
  split; [intros x E; vm_compute in E; injection E as <-; apply small_bytes; reflexivity|]. split; [intros x E; vm_compute in E; injection E as <-; apply small_bytes; reflexivity|].
  split; [vm_compute; discriminate|]. split; [vm_compute; reflexivity|reflexivity].
Qed.
Print Assumptions C44_format_refuted.

(** ** C45. Without matchers a grain matches itself, and the order of two grains does not matter. *)
Theorem C45_reflexive psnr opts a r : no_matchers opts -> meta_ok a -> stored_ok a -> no_nan a -> compare_grain psnr opts a a = Ok r -> r_equal r = true.
Proof. exact (grain_refl psnr opts a r). Qed.
Print Assumptions C45_reflexive.
Example C45_reflexive_ex : verdict (compare_grain no_psnr [] (ex_float [0; 0; 128; 63; 0; 0; 0; 128]) (ex_float [0; 0; 128; 63; 0; 0; 0; 128])) = Ok true /\
  verdict (compare_grain no_psnr [Include $"creation_timestamp"] (ex_event $"t") (ex_event $"t")) = Ok true.
Proof. vm_compute. split; reflexivity. Qed.

Theorem C45_symmetric psnr opts a b r : no_matchers opts -> meta_ok a -> meta_ok b -> stored_ok a -> stored_ok b ->
  compare_grain psnr opts a b = Ok r -> exists r', compare_grain psnr opts b a = Ok r' /\ r_equal r' = r_equal r.
Proof. exact (grain_sym psnr opts a b r). Qed.
Print Assumptions C45_symmetric.
Example C45_symmetric_ex :
  verdict (compare_grain no_psnr [] (ex_s16 5 [1; 2]) (ex_s16 5 [1; 3])) = Ok false /\ verdict (compare_grain no_psnr [] (ex_s16 5 [1; 3]) (ex_s16 5 [1; 2])) = Ok false /\
  verdict (compare_grain no_psnr [] (ex_s24 [1; 2; 3; 4]) (ex_s24 [1; 2; 3])) = Ok false /\
  verdict (compare_grain no_psnr [Exclude $"length"] (ex_s24 [1; 2; 3; 4]) (ex_s24 [1; 2; 3])) = Ok true /\
  verdict (compare_grain no_psnr [Exclude $"length"] (ex_s24 [1; 2; 3]) (ex_s24 [1; 2; 3; 4])) = Ok true.
Proof. vm_compute. repeat split. Qed.

(** A float sample that is NaN makes a grain differ from itself; with an expected difference the order matters. *)
Theorem C45_nan_refuted : exists a r, meta_ok a /\ stored_ok a /\ compare_grain no_psnr [] a a = Ok r /\ r_equal r = false.
Proof.
  exists (ex_float ex_nan). eexists. split; [exact (ex_float_meta ex_nan)|].
  split; [intros x E; vm_compute in E; injection E as <-; apply small_bytes; reflexivity|]. split; [vm_compute; reflexivity|reflexivity].
Qed.
Print Assumptions C45_nan_refuted.
(** An event whose entries have a key with braces cannot be compared, not even with itself. *)
Theorem C45_braces_refuted : exists a, meta_ok a /\ stored_ok a /\ no_nan a /\ has_type a $"event" /\ compare_grain no_psnr [] a a = Err EKey.
Proof.
  exists (ex_keyed $"{x}"). split; [apply (ex_keyed_meta $"{x}")|]. split; [intros x E; vm_compute in E; discriminate E|].
  split; [intros f x E; vm_compute in E; discriminate E|]. split; vm_compute; reflexivity.
Qed.
Print Assumptions C45_braces_refuted.
Example C45_braces_ex : verdict (compare_grain no_psnr [] (ex_keyed $"x") (ex_keyed $"x")) = Ok true /\ verdict (compare_grain no_psnr [] (ex_keyed $"{{x}}") (ex_keyed $"{{x}}")) = Ok true /\
  compare_grain no_psnr [] (ex_keyed $"{}}") (ex_keyed $"x") = Err EIndex /\ compare_grain no_psnr [Exclude $"event_data"] (ex_keyed $"{1}") (ex_keyed $"{1}") = Err EValue.
Proof. vm_compute. repeat split. Qed.
Theorem C45_matcher_refuted : exists opts a b r r', compare_grain no_psnr opts a b = Ok r /\ compare_grain no_psnr opts b a = Ok r' /\ r_equal r <> r_equal r'.
Proof.
  exists [Exclude $"sync_timestamp"; OExpect $"{}.origin_timestamp" (fun d => d =? 40)], (ex_audio 2 7 1040 5 [1; 2]), (ex_audio 2 7 1000 5 [1; 2]).
  eexists; eexists. split; [vm_compute; reflexivity|]. split; [vm_compute; reflexivity|]. discriminate.
Qed.
Print Assumptions C45_matcher_refuted.

(** ** C46. Payloads compared by sample. *)
Theorem C46_audio f id opts attr x y r : bytes_ok x -> bytes_ok y -> ~ waived opts id ->
  data_equality (code_for_audio f) id opts attr (Some x) (Some y) = Ok r -> r_equal r = true <-> payload_agrees (audio_kind f) x y.
Proof. exact (audio_payload f id opts attr x y r). Qed.
Print Assumptions C46_audio.
Example C46_audio_ex :
  verdict (data_equality (code_for_audio 0x6) $"{}.data" [] None (Some [1; 2; 3; 4; 5; 6; 7]) (Some [1; 2; 3; 4; 5; 6; 9; 9])) = Ok true /\
  verdict (data_equality (code_for_audio 0x6) $"{}.data" [] None (Some [1; 2; 3; 4; 5; 6; 7]) (Some [1; 2; 3; 4; 5; 7; 7])) = Ok false /\
  verdict (data_equality (code_for_audio 0x2) $"{}.data" [] None (Some [1; 2; 3; 4]) (Some [1; 2])) = Ok false /\
  verdict (data_equality (code_for_audio 0x1a) $"{}.data" [] None (Some ex_zero) (Some ex_minus_zero)) = Ok true.
Proof. vm_compute. repeat split. Qed.

Theorem C46_video f id opts attr x y r : bytes_ok x -> bytes_ok y -> ~ waived opts id ->
  data_equality (code_for_video f) id opts attr (Some x) (Some y) = Ok r -> r_equal r = true <-> x = y.
Proof. exact (video_payload f id opts attr x y r). Qed.
Print Assumptions C46_video.
Example C46_video_ex : verdict (data_equality (code_for_video v210) $"{}.data" [] None (Some [1; 2; 3; 4; 5; 6; 7; 8]) (Some [1; 2; 3; 4; 5; 6; 7; 8])) = Ok true /\
  verdict (data_equality (code_for_video v210) $"{}.data" [] None (Some [1; 2; 3; 4; 5; 6; 7; 8]) (Some [5; 6; 7; 8; 1; 2; 3; 4])) = Ok false.
Proof. vm_compute. split; reflexivity. Qed.

(** struct.error unless both are whole numbers of samples, even if the payload is excluded; 24-bit samples are the exception. *)
Theorem C46_whole_audio f id opts attr x y : (exists r, data_equality (code_for_audio f) id opts attr (Some x) (Some y) = Ok r) <->
  zlen x mod audio_unit f = 0 /\ zlen y mod audio_unit f = 0.
Proof. exact (audio_whole f id opts attr x y). Qed.
Print Assumptions C46_whole_audio.
Theorem C46_whole_video f id opts attr x y : (exists r, data_equality (code_for_video f) id opts attr (Some x) (Some y) = Ok r) <->
  zlen x mod video_unit f = 0 /\ zlen y mod video_unit f = 0.
Proof. exact (video_whole f id opts attr x y). Qed.
Print Assumptions C46_whole_video.
Example C46_whole_ex : data_equality (code_for_audio 0x2) $"{}.data" [Exclude $"data"] None (Some [1; 2; 3]) (Some [1; 2; 3]) = Err EStruct /\
  is_ok (data_equality (code_for_audio 0x6) $"{}.data" [] None (Some [1]) (Some [1; 2])) = true /\
  data_equality (code_for_video v210) $"{}.data" [] None (Some [1; 2; 3; 4]) (Some [1; 2; 3; 4; 5; 6]) = Err EStruct.
Proof. vm_compute. repeat split. Qed.

(** Payloads that differ and match: bytes after the last 24-bit sample, and the zeros of floats. *)
Theorem C46_trailing_refuted : exists x y r, bytes_ok x /\ bytes_ok y /\ x <> y /\ zlen x = zlen y /\
  data_equality (code_for_audio 0x6) $"{}.data" [] None (Some x) (Some y) = Ok r /\ r_equal r = true.
Proof.
  exists [1; 2; 3; 4], [1; 2; 3; 5]. eexists. split; [apply small_bytes; reflexivity|]. split; [apply small_bytes; reflexivity|]. split; [discriminate|]. split; [reflexivity|].
  split; [vm_compute; reflexivity|reflexivity].
Qed.
Print Assumptions C46_trailing_refuted.
Theorem C46_float_refuted : exists x y r, bytes_ok x /\ bytes_ok y /\ x <> y /\
  data_equality (code_for_audio 0x1a) $"{}.data" [] None (Some x) (Some y) = Ok r /\ r_equal r = true.
Proof.
  exists ex_zero, ex_minus_zero. eexists. split; [apply small_bytes; reflexivity|]. split; [apply small_bytes; reflexivity|]. split; [discriminate|].
  split; [vm_compute; reflexivity|reflexivity].
Qed.
Print Assumptions C46_float_refuted.

(** ** C47. Sequences: the verdict, and the number of pairs compared. *)
Theorem C47_pairwise psnr last opts a b r n : Forall stored_ok a -> Forall stored_ok b -> compare_grains_pairwise psnr last opts a b = Ok (r, n) ->
  (r_equal r = true <-> Forall2 (grains_agree psnr opts) a b) /\ 0 <= n /\ pairs_compared (grains_agree psnr opts) a b (Z.to_nat n).
Proof. exact (pairwise psnr last opts a b r n). Qed.
Print Assumptions C47_pairwise.
Example C47_pairwise_ex :
  let g x := ex_s16 5 [x; 0] in
  verdict2 (compare_grains_pairwise no_psnr false [] [g 1; g 2; g 3] [g 1; g 2; g 3]) = Ok (true, 3) /\
  verdict2 (compare_grains_pairwise no_psnr true [] [g 1; g 2; g 3] [g 1; g 4; g 3]) = Ok (false, 2) /\
  verdict2 (compare_grains_pairwise no_psnr false [] [g 1; g 2] [g 1; g 2; g 3]) = Ok (false, 2) /\
  verdict2 (compare_grains_pairwise no_psnr false [] [] []) = Ok (true, 0).
Proof. vm_compute. repeat split. Qed.

(** If every pair can be compared it raises exactly with return_last_only and an empty sequence; then the exception is an UnboundLocalError. *)
Theorem C47_total psnr last opts a b :
  (forall i x y, nth_error a i = Some x -> nth_error b i = Some y -> can_compare psnr opts x y) ->
  (exists r, compare_grains_pairwise psnr last opts a b = Ok r) <-> ~ (last = true /\ (a = [] \/ b = [])).
Proof. exact (pairwise_total psnr last opts a b). Qed.
Print Assumptions C47_total.
Theorem C47_unbound psnr opts a b : a = [] \/ b = [] -> compare_grains_pairwise psnr true opts a b = Err EUnbound.
Proof. exact (pairwise_unbound psnr opts a b). Qed.
Print Assumptions C47_unbound.
Example C47_unbound_ex : compare_grains_pairwise no_psnr true [] [] [ex_s16 5 [1; 2]] = Err EUnbound /\
  is_ok (compare_grains_pairwise no_psnr false [] [] [ex_s16 5 [1; 2]]) = true.
Proof. vm_compute. split; reflexivity. Qed.
