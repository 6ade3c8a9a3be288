(** Draws for the examples in PropsStrategy.v. *)
From Coq Require Import String Lia ZifyBool.
From Verif Require Import Base BaseProofs PyValue JsonProofs CogEnums GrainObj Compare CompareSpec Tools Strategies StrategySpec StrategyMain StrategyTexts.
From Verif Require CompareExample SavedExample.
Local Open Scope list_scope.

Lemma drawing t args now l d r : grains t args = Ok l -> drawn l d -> build t now d = r -> can_be t args now r.
Proof. intros G D B. exists l, d. auto. Qed.
Ltac draws := cbn [fst snd can_draw in_bounds option_map];
  first [left; reflexivity | right; draws | split; draws | reflexivity | exact I
    | apply Forall_cons; draws | apply Forall_nil].
Ltac draw d := eapply (drawing _ _ _ _ d); [vm_compute; reflexivity| |vm_compute; reflexivity]; repeat (apply Forall2_cons; [split; [reflexivity|draws]|]); apply Forall2_nil.
Definition sx_or (r : res gobj) : gobj := match r with Ok o => o | Err _ => mkO KGrain [] None None end.

Definition sx_common : dict :=
  [($"src_id", PUuid 7); ($"flow_id", PUuid 8); ($"origin_timestamp", PTime 1000); ($"sync_timestamp", PTime 2000); ($"creation_timestamp", PTime (-5))].
Definition sx_no_creation : dict := [($"src_id", PUuid 7); ($"flow_id", PUuid 8); ($"origin_timestamp", PTime 1000); ($"sync_timestamp", PTime 2000)].

(** *** A video grain with a height, and one of three widths. *)
Definition sx_args : list (str * sarg) := [($"width", From (SInts (Some (2, 4)))); ($"height", Value (PInt 2)); ($"rate", Value (PFrac 50 1))].
Definition sx_video_args : dict := sx_common ++ [($"rate", PFrac 50 1); ($"cog_frame_format", PInt 0x2000); ($"width", PInt 3); ($"height", PInt 2); ($"cog_frame_layout", PInt 0)].
Definition sx_video : gobj := sx_or (build $"video" 99 sx_video_args).
Lemma sx_video_drawn : can_be $"video" sx_args 99 (Ok sx_video).
Proof. draw sx_video_args. Qed.
(** *** The format that was asked for is not what is drawn, nor is the time of creation. *)
Definition sx_audio_args : dict := sx_common ++ [($"cog_audio_format", PInt 0); ($"samples", PInt 1); ($"channels", PInt 2); ($"sample_rate", PInt 48000)].
Definition sx_audio : gobj := sx_or (build $"audio" 99 sx_audio_args).
Lemma sx_audio_drawn : can_be $"audio" [($"format", Value (PInt 0xa))] 99 (Ok sx_audio).
Proof. draw sx_audio_args. Qed.
Definition sx_coded_audio_args : dict := sx_common ++ [($"cog_audio_format", PInt 0x200); ($"samples", PInt 1); ($"channels", PInt 2); ($"sample_rate", PInt 48000)].
Definition sx_coded_audio : gobj := sx_or (build $"coded_audio" 99 sx_coded_audio_args).
Lemma sx_coded_audio_drawn : can_be $"coded_audio" [($"creation_timestamp", Value (PTime 5))] 99 (Ok sx_coded_audio).
Proof. draw sx_coded_audio_args. Qed.
(** *** A coded video grain whose format is unknown and whose units are not in order. *)
Definition sx_coded_args (w h : Z) : dict :=
  sx_common ++ [($"cog_frame_format", PInt 0xfffffffe); ($"coded_width", PInt 240); ($"coded_height", PInt 135); ($"cog_frame_layout", PInt 0); ($"origin_width", PInt w);
    ($"origin_height", PInt h); ($"is_key_frame", PBool true); ($"temporal_offset", PInt 3); ($"unit_offsets", PList [PInt 5; PInt 3])].
Definition sx_coded : gobj := sx_or (build $"coded_video" 99 (sx_coded_args 240 135)).
Lemma sx_coded_drawn : can_be $"coded_video" [] 99 (Ok sx_coded).
Proof. draw (sx_coded_args 240 135). Qed.
(** *** An event. *)
Definition sx_entry : pv := PDict [($"path", PStr $"a/b"); ($"pre", PInt (-3)); ($"post", PBool true)].
Definition sx_event_args : dict :=
  sx_common ++ [($"rate", PFrac 25 1); ($"duration", PFrac 1 25); ($"event_type", PStr $"urn:x-ipstudio:format:event.a"); ($"topic", PStr $"b"); ($"event_data", PList [sx_entry; sx_entry])].
Definition sx_event : gobj := sx_or (build $"event" 99 sx_event_args).
Lemma sx_event_drawn : can_be $"event" [] 99 (Ok sx_event).
Proof. draw sx_event_args. Qed.

(** *** With data: two floats; four bytes for one sample of 24 bits. *)
Definition sx_with (t : str) (d : dict) (b : bytes) : gobj := sx_or (rbind (build t 99 d) (fun o => with_payload 99 o b)).
Lemma drawing_data t now d l o s b r : has_payload t = true -> grains t (template_args t) = Ok l -> drawn l d -> build t now d = Ok o -> data_strategy o None = Ok s -> can_draw_data s b ->
  with_payload now o b = r -> can_be_with_data t now r.
Proof. intros P G D B S C <-. unfold can_be_with_data. rewrite P. exists (Ok o). split; [exists l, d; auto|]. rewrite S. exists b. auto. Qed.
Ltac draw_data d b := eapply (drawing_data _ _ d _ _ _ b); [reflexivity|vm_compute; reflexivity| |vm_compute; reflexivity|vm_compute; reflexivity| |vm_compute; reflexivity];
  [repeat (apply Forall2_cons; [split; [reflexivity|draws]|]); apply Forall2_nil|].
Definition sx_float_args : dict := sx_common ++ [($"cog_audio_format", PInt 0x1a); ($"samples", PInt 2); ($"channels", PInt 1); ($"sample_rate", PInt 44100)].
Definition sx_floats : bytes := [0; 0; 128; 63; 0; 0; 0; 0].
Definition sx_float : gobj := sx_with $"audio" sx_float_args sx_floats.
Lemma sx_float_drawn : can_be_with_data $"audio" 99 (Ok sx_float).
Proof.
  draw_data sx_float_args sx_floats. exists [[0; 0; 128; 63]; [0; 0; 0; 0]]. split; [reflexivity|]. split; [reflexivity|]. apply Forall_cons; [reflexivity|]. apply Forall_cons; [reflexivity|apply Forall_nil].
Qed.
Definition sx_24_args : dict := sx_common ++ [($"cog_audio_format", PInt 4); ($"samples", PInt 1); ($"channels", PInt 1); ($"sample_rate", PInt 44100)].
Definition sx_24 (b : bytes) : gobj := sx_with $"audio" sx_24_args b.
Lemma sx_24_drawn a b c d : forallb (between 0 255) [a; b; c; d] = true -> can_be_with_data $"audio" 99 (Ok (sx_24 [a; b; c; d])).
Proof. intros H. draw_data sx_24_args [a; b; c; d]. split; [reflexivity|exact H]. Qed.
Definition sx_16_args : dict := sx_common ++ [($"cog_audio_format", PInt 0xa); ($"samples", PInt 1); ($"channels", PInt 1); ($"sample_rate", PInt 44100)].
Definition sx_16 (b : bytes) : gobj := sx_with $"audio" sx_16_args b.
Lemma sx_16_drawn a b c d : forallb (between 0 255) [a; b; c; d] = true -> can_be_with_data $"audio" 99 (Ok (sx_16 [a; b; c; d])).
Proof. intros H. draw_data sx_16_args [a; b; c; d]. split; [reflexivity|exact H]. Qed.
Lemma sx_coded_data_drawn : can_be_with_data $"coded_video" 99 (Ok (sx_with $"coded_video" (sx_coded_args 16 9) [])).
Proof. draw_data (sx_coded_args 16 9) (@nil Z). split; reflexivity. Qed.
Lemma sx_both : Forall some_drawn [sx_float; sx_16 [1; 2; 3; 4]].
Proof.
  apply Forall_cons; [exists $"audio", 99; split; [right; left; reflexivity|exact sx_float_drawn]|].
  apply Forall_cons; [exists $"audio", 99; split; [right; left; reflexivity|apply sx_16_drawn; reflexivity]|apply Forall_nil].
Qed.
Lemma sx_donotset : exists l d, grains $"event" [($"origin_timestamp", DoNotSet)] = Ok l /\ drawn l d /\ build $"event" 99 d = Err EType.
Proof.
  eexists; exists (ddel $"origin_timestamp" sx_event_args). split; [vm_compute; reflexivity|]. split; [|vm_compute; reflexivity].
  repeat (apply Forall2_cons; [split; [reflexivity|draws]|]); apply Forall2_nil.
Qed.
(** *** With a rate that was drawn. *)
Definition sx_rated_args : dict := sx_common ++ [($"rate", PFrac 30000 1001); ($"duration", PFrac 0 1); ($"cog_audio_format", PInt 0); ($"samples", PInt 1); ($"channels", PInt 2); ($"sample_rate", PInt 48000)].
Definition sx_rated : gobj := sx_or (build $"audio" 99 sx_rated_args).
Lemma sx_rated_drawn : can_be $"audio" no_rates 99 (Ok sx_rated).
Proof. draw sx_rated_args. Qed.
