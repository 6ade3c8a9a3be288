(** C58: the times of grains. *)
From Coq Require Import String Lia.
From Verif Require Import Base CogEnums GsfPrim GsfDecode GsfEncode GsfFileSpec GsfEncState GsfEncSpec GsfEncFile GsfEncDecodeSpec PyValue PatternTime PatternSpec PatternTimeProofs GrainObj GrainSet GrainSetSpec GrainGsf GrainGsfSpec GrainGsfFileSpec
  GrainTime GrainTimeSpec GrainTimeProofs GrainTimeMain GrainTimeNormal GrainSetExample GrainTimeExample.
Local Open Scope list_scope.

(** The range of an audio grain begins at its timestamp, ends within a nanosecond of its last sample, and at the sample rate it holds its samples and no others. *)
Theorem C58_audio : forall k o t n r, clock_ok k -> from_zero k -> slower (r, 1) -> samples_from o t n r -> 0 < n ->
  exists b, final_origin_timestamp k o = Ok b /\ origin_timerange k o = Ok (Span t b true) /\ t <= b /\ Z.abs ((b - t) * r - (n - 1) * second) <= r /\
    forall c, t = grid k (r, 1) c ->
      normalise_range k o (Span t b true) = Ok (Span t (grid k (r, 1) (c + n)) false) /\ normalise_time k o b = Ok (grid k (r, 1) (c + n - 1)) /\
      forall x, within (grid k (r, 1) x) (Span t (grid k (r, 1) (c + n)) false) <-> c <= x < c + n.
Proof. exact audio_range. Qed.
Print Assumptions C58_audio.
Example C58_audio_ex : from_zero example_clock /\ slower (48000, 1) /\ samples_from (gt_audio 20833333 3) (grid example_clock (48000, 1) 1000) 3 48000 /\
  origin_timerange example_clock (gt_audio 20833333 3) = Ok (Span 20833333 20874999 true) /\
  normalise_range example_clock (gt_audio 20833333 3) (Span 20833333 20874999 true) = Ok (Span 20833333 20895833 false).
Proof.
  split; [intros n d N D; cbn [example_clock from_count]; rewrite !Z.mul_0_l; apply Z.div_0_l; lia|]. split; [unfold slower, second; cbn; lia|].
  split; [split; [left; reflexivity|vm_compute; auto]|]. vm_compute. auto.
Qed.

(** Of audio grains that follow each other every sample time is in the range of exactly one, and no other sample time is in any. *)
Theorem C58_stretch : forall k r, clock_ok k -> from_zero k -> slower (r, 1) -> forall c os ns, in_turn k r c os ns ->
  exists ss, Forall2 (fun o s => rbind (origin_timerange k o) (normalise_range k o) = Ok s) os ss /\
    forall x, List.length (filter (inside (grid k (r, 1) x)) ss) = if (c <=? x) && (x <? c + total ns) then 1%nat else 0%nat.
Proof. exact stretch. Qed.
Print Assumptions C58_stretch.
Example C58_stretch_ex : in_turn example_clock 48000 1000 gt_turn [3; 2; 4] /\
  gt_ranges gt_turn = [Ok (Span 20833333 20895833 false); Ok (Span 20895833 20937500 false); Ok (Span 20937500 21020833 false)].
Proof. split; [|vm_compute; reflexivity]. unfold gt_turn. repeat (apply turn_next; [lia|split; [left; reflexivity|vm_compute; auto]|]). apply turn_end. Qed.

(** The range of a picture is its timestamp; at its rate it lasts until the next picture. *)
Theorem C58_video : forall k o t r, picture_at o t r -> origin_timerange k o = Ok (Span t t true) /\ final_origin_timestamp k o = Ok t /\
  (clock_ok k -> slow r -> media_rate o = Ok (Some r) /\ forall c, t = grid k r c ->
    normalise_range k o (Span t t true) = Ok (Span t (grid k r (c + 1)) false) /\ normalise_time k o t = Ok t).
Proof. exact video_range. Qed.
Print Assumptions C58_video.
Example C58_video_ex : picture_at (gt_coded 40000000 None) 40000000 (25, 1) /\ grid example_clock (25, 1) 1 = 40000000 /\
  origin_timerange example_clock (gt_coded 40000000 None) = Ok (Span 40000000 40000000 true) /\
  normalise_range example_clock (gt_coded 40000000 None) (Span 40000000 40000000 true) = Ok (Span 40000000 80000000 false).
Proof. split; [split; [right; reflexivity|vm_compute; auto]|]. vm_compute. auto. Qed.

(** Normalised at the rate of a grain, whole counts stay as they are; a range that ends before a count stays, and one that ends on a count ends before the next. *)
Theorem C58_counts : forall k o r c d, clock_ok k -> slow r -> runs_at o r ->
  normalise_time k o (grid k r c) = Ok (grid k r c) /\
  (c < d -> normalise_range k o (Span (grid k r c) (grid k r d) false) = Ok (Span (grid k r c) (grid k r d) false)) /\
  (c <= d -> normalise_range k o (Span (grid k r c) (grid k r d) true) = Ok (Span (grid k r c) (grid k r (d + 1)) false)) /\
  normalise_range k o (Span (grid k r c) (grid k r c) false) = Ok Never /\ normalise_range k o Never = Ok Never.
Proof. exact normal_counts. Qed.
Print Assumptions C58_counts.
Example C58_counts_ex : runs_at (gt_coded 40000000 None) (25, 1) /\
  normalise_range example_clock (gt_coded 40000000 None) (Span 40000000 120000000 false) = Ok (Span 40000000 120000000 false) /\
  normalise_range example_clock (gt_coded 40000000 None) (Span 40000000 120000000 true) = Ok (Span 40000000 160000000 false).
Proof. split; [left; exists 40000000; split; [right; reflexivity|vm_compute; auto]|]. vm_compute. auto. Qed.
(** Normalising any range gives one between whole counts, and normalising that changes nothing. *)
Theorem C58_twice : forall k o r s s', clock_ok k -> slow r -> runs_at o r -> normalise_range k o s = Ok s' ->
  normalise_range k o s' = Ok s' /\ (s' = Never \/ exists c d, c < d /\ s' = Span (grid k r c) (grid k r d) false).
Proof. exact normal_twice. Qed.
Print Assumptions C58_twice.
Example C58_twice_ex : normalise_range example_clock (gt_audio 20833333 3) (Span 20833300 20874900 true) = Ok (Span 20833333 20895833 false) /\
  normalise_range example_clock (gt_audio 20833333 3) (Span 20833333 20895833 false) = Ok (Span 20833333 20895833 false).
Proof. vm_compute. auto. Qed.
(** Grains without a rate, or of rate 0, change nothing. *)
Theorem C58_none : forall k o t s, match o_class o with
    | KVideo | KCodedVideo => exists d, getattr o $"rate" = Ok (PFrac 0 d)
    | KAudio | KCodedAudio => getattr o $"sample_rate" = Ok (PInt 0)
    | _ => True end ->
  normalise_time k o t = Ok t /\ normalise_range k o s = Ok s.
Proof. exact normal_none. Qed.
Print Assumptions C58_none.
Example C58_none_ex : o_class gt_default = KAudio /\ getattr gt_default $"sample_rate" = Ok (PInt 0) /\ normalise_range example_clock gt_default (Span 1 7 true) = Ok (Span 1 7 true).
Proof. vm_compute. auto. Qed.

(** A coded picture with a temporal offset is shown that many pictures later, and every other grain at its time. *)
Theorem C58_shown : forall k o, (forall n, o_class o = KCodedVideo -> getattr o $"temporal_offset" = Ok (PInt n) -> forall t r, picture_at o t r -> clock_ok k -> slow r ->
    presentation_origin_timestamp k o = Ok (t + grid k r n) /\ final_presentation_origin_timestamp k o = Ok (t + grid k r n) /\
    presentation_origin_timerange k o = Ok (Span (t + grid k r n) (t + grid k r n) true) /\
    forall c, slower r -> t = grid k r c -> normalise_time k o (t + grid k r n) = Ok (grid k r (c + n))) /\
  ((o_class o = KCodedVideo -> getattr o $"temporal_offset" = Ok PNone /\ exists t r, picture_at o t r) ->
    presentation_origin_timestamp k o = attr as_time $"origin_timestamp" o /\ final_presentation_origin_timestamp k o = final_origin_timestamp k o /\
    presentation_origin_timerange k o = origin_timerange k o).
Proof. exact shown_range. Qed.
Print Assumptions C58_shown.
Example C58_shown_ex : presentation_origin_timerange example_clock (gt_coded 40000000 (Some 2)) = Ok (Span 120000000 120000000 true) /\
  presentation_origin_timestamp example_clock (gt_coded 40000000 (Some (-1))) = Ok 0 /\ presentation_origin_timerange example_clock (gt_audio 20833333 3) = Ok (Span 20833333 20874999 true).
Proof. vm_compute. auto. Qed.

(** Histories of assignments to other attributes leave all the times as they are. *)
Theorem C58_left : forall k l o o' rs, shaped o -> Forall (fun nv => exists so, dget (fst nv) (sorts (o_class o)) = Some so /\ sayable so (snd nv)) l ->
  Forall (fun nv => ~ In (fst nv) time_names) l -> set_all l o = (o', rs) -> same_times k o o'.
Proof. exact times_left. Qed.
Print Assumptions C58_left.
Example C58_left_ex : let o := fst (set_all [($"sync_timestamp", PTime 7); ($"coded_width", PInt 99); ($"duration", PInt 3); ($"is_key_frame", PBool false)] (gt_coded 40000000 (Some 2))) in
  getattr o $"coded_width" = Ok (PInt 99) /\ presentation_origin_timerange example_clock o = Ok (Span 120000000 120000000 true).
Proof. vm_compute. auto. Qed.

(** A new origin timestamp moves all the times by the difference, and the rate stays. *)
Theorem C58_moved : forall k o o' t t' s, shaped o -> getattr o $"origin_timestamp" = Ok (PTime t) -> origin_timerange k o = Ok s -> set_attr $"origin_timestamp" (PTime t') o = Ok o' ->
  origin_timerange k o' = Ok (moved_by (t' - t) s) /\ media_rate o' = media_rate o /\ (exists b, final_origin_timestamp k o = Ok b /\ final_origin_timestamp k o' = Ok (b + (t' - t))) /\
  (forall p, presentation_origin_timestamp k o = Ok p -> presentation_origin_timestamp k o' = Ok (p + (t' - t))) /\
  (forall p, presentation_origin_timerange k o = Ok p -> presentation_origin_timerange k o' = Ok (moved_by (t' - t) p)).
Proof. exact times_moved. Qed.
Print Assumptions C58_moved.
Example C58_moved_ex : match set_attr $"origin_timestamp" (PTime 20895833) (gt_audio 20833333 3) with
  | Ok o => origin_timerange example_clock o = Ok (Span 20895833 20937499 true) /\ final_presentation_origin_timestamp example_clock o = Ok 20937499
  | Err _ => False end.
Proof. vm_compute. auto. Qed.

(** The grains of a file of version 9 have the times of the grains that were written. *)
Theorem C58_file : forall k e c los lgs data cf strict fwd, reads_as e c lgs data -> e_major e = 9 -> all_writable los lgs -> at_once cf -> Forall (fun lo => plain_numbers (snd lo)) los ->
  exists s l, decode_file cf (mkFile data 0 strict fwd) = Ok (s, (l, s, Done)) /\
    Forall2 (fun lo i => i_local i = fst lo /\ forall now, exists o', item_object now data i = Ok o' /\ same_times k (snd lo) o') (asked (k_ids cf) los) l.
Proof. exact times_file. Qed.
Print Assumptions C58_file.
Example C58_file_ex : map (fun o => (origin_timerange example_clock o, presentation_origin_timestamp example_clock o)) (map (gt_again 9) [gt_audio 20833333 3; gt_coded 40000000 None; gt_coded 40000000 (Some 2)]) =
  [(Ok (Span 20833333 20874999 true), Ok 20833333); (Ok (Span 40000000 40000000 true), Ok 40000000); (Ok (Span 40000000 40000000 true), Ok 120000000)].
Proof. vm_compute. reflexivity. Qed.
(** In files of version 8 coded pictures without a temporal offset come back with one of 2147483647 pictures. *)
Theorem C58_version_refuted : ~ (forall o, o_class o = KCodedVideo -> presentation_origin_timestamp example_clock (gt_again 8 o) = presentation_origin_timestamp example_clock o).
Proof. intros H. specialize (H (gt_coded 40000000 None) eq_refl). vm_compute in H. discriminate H. Qed.
Print Assumptions C58_version_refuted.
Example C58_version_refuted_ex : presentation_origin_timestamp example_clock (gt_again 8 (gt_coded 40000000 None)) = Ok 85899345920000000 /\
  presentation_origin_timestamp example_clock (gt_coded 40000000 None) = Ok 40000000.
Proof. vm_compute. auto. Qed.

(** The range that gsf_probe makes of the ranges of a segment is the smallest that holds them all. *)
Theorem C58_joined : forall ss, forall s, closed s -> Forall closed ss -> closed (fold_left extended ss s) /\ smallest (fold_left extended ss s) (s :: ss).
Proof. exact joined_smallest. Qed.
Print Assumptions C58_joined.
Example C58_joined_ex : fold_left extended [Span 5 9 true; Span 1 3 true; Span 20 20 true] (Span 4 6 true) = Span 1 20 true.
Proof. vm_compute. reflexivity. Qed.

(** Audio grains made of nothing but their source and flow have no range; the sample rate is 0. *)
Theorem C58_default_refuted : ~ (forall o t, made o -> o_class o = KAudio -> getattr o $"origin_timestamp" = Ok (PTime t) -> exists s, origin_timerange example_clock o = Ok s).
Proof.
  intros H. destruct (H gt_default 1000) as [s S]; [exact (made_audio 5 (mkKw (Some 1) (Some 2) (Some 1000) None (Some 900) (25, 1) (1, 25)) 0 0 0 0 ANone gt_default eq_refl)|reflexivity|vm_compute; reflexivity|].
  vm_compute in S. discriminate S.
Qed.
Print Assumptions C58_default_refuted.
(** The timestamp of an audio grain without samples is not in its range, and the final one is before it. *)
Theorem C58_empty_refuted : ~ (forall o t n r s, samples_from o t n r -> 0 < r -> origin_timerange example_clock o = Ok s -> within t s).
Proof. intros H. apply (H (gt_audio 1000 0) 1000 0 48000 Never); [split; [left; reflexivity|vm_compute; auto]|lia|vm_compute; reflexivity]. Qed.
Print Assumptions C58_empty_refuted.
Example C58_empty_refuted_ex : final_origin_timestamp example_clock (gt_audio 1000 0) = Ok (-19834).
Proof. vm_compute. reflexivity. Qed.
(** A coded picture with a temporal offset and rate 0 has no time of presentation, although it has a range. *)
Theorem C58_still_refuted : ~ (forall o s, o_class o = KCodedVideo -> origin_timerange example_clock o = Ok s -> exists t, presentation_origin_timestamp example_clock o = Ok t).
Proof. intros H. destruct (H gt_still (Span 1000 1000 true) eq_refl) as [t T]; vm_compute; [reflexivity|]. vm_compute in T. discriminate T. Qed.
Print Assumptions C58_still_refuted.
