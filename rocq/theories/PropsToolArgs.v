(** C77: what the wrapping tools make of their options. *)
From Coq Require Import String Lia.
From Verif Require Import Base GsfPrim GsfBlock GsfPrimProofs GsfEncFile GsfDecode CogEnums GsfEncode GsfSpec GsfFileSpec GsfEncState GsfEncSpec GsfEncDecodeSpec GsfExamples PatternTime PatternSpec PyValue GrainObj VideoLayout BuildSpec GrainSetSpec Wrap WrapSpec
  GrainGsf GrainGsfSpec GrainGsfFileSpec Tools ToolsSpec ToolsExample ToolArgs ToolArgsSpec ToolArgsProofs ToolArgsMain ToolArgsFile ToolArgsExample.
From Verif Require Import PyValue GrainObj.
Local Open Scope list_scope.

(** Video: the size is read from its text, and the template has what the options say, made-up identifiers otherwise, one frame per period. *)
Theorem C77_video : forall now ff fs a w h, size_text (vo_size a) w h -> 0 <= w -> 0 <= h -> 0 < vo_rate a -> member frame_formats (vo_format a) = true -> vo_format a <> H264 -> vo_format a <> AVCI ->
  exists t, video_template now ff fs a = Ok (t, RawWrapper) /\ made t /\ o_class t = KVideo /\
    template_of (or_else (vo_flow a) ff) (or_else (vo_source a) fs) (vo_start a) (vo_rate a, 1) (1, vo_rate a) t /\
    attr_is t $"width" (PInt w) /\ attr_is t $"height" (PInt h) /\ attr_is t $"cog_frame_format" (PInt (vo_format a)) /\ attr_is t $"cog_frame_layout" (PInt 0xfffffffe) /\
    expected_length t = Ok (size_for_format (vo_format a) w h).
Proof. exact video_templated. Qed.
Print Assumptions C77_video.
Theorem C77_coded : forall now ff fs a w h, size_text (vo_size a) w h -> 0 < vo_rate a -> vo_format a = H264 \/ vo_format a = AVCI ->
  exists t, video_template now ff fs a = Ok (t, H264Wrapper) /\ made t /\
    template_of (or_else (vo_flow a) ff) (or_else (vo_source a) fs) (vo_start a) (vo_rate a, 1) (1, vo_rate a) t /\
    attr_is t $"origin_width" (PInt w) /\ attr_is t $"origin_height" (PInt h) /\ attr_is t $"coded_width" (PInt 0) /\ attr_is t $"coded_height" (PInt 0) /\
    attr_is t $"cog_frame_format" (PInt (vo_format a)) /\ get_data t = Ok (Some []).
Proof. exact coded_templated. Qed.
Print Assumptions C77_coded.
Example C77_video_ex :
  size_text $" 4 x2" 4 2 /\
  (let t := ta_made (video_template 9 21 22 ta_video) in
   map (getattr t) [$"flow_id"; $"source_id"; $"origin_timestamp"; $"rate"; $"duration"; $"width"; $"height"] = map Ok [PUuid 7; PUuid 22; PTime 1000000000; PFrac 50 1; PFrac 1 50; PInt 4; PInt 2] /\
   expected_length t = Ok 16) /\
  (let t := ta_made (video_template 9 21 22 (mkVo None None 0 $"640x480" H264 25)) in getattr t $"origin_width" = Ok (PInt 640) /\ getattr t $"coded_width" = Ok (PInt 0)) /\
  parse_size (vo_size no_video_options) = Ok (1920, 1080).
Proof.
  split; [|vm_compute; auto]. exists [32], [32], [], [], [52], [50]. unfold blanks.
  split; [repeat constructor; lia|]. split; [repeat constructor; lia|]. split; [constructor|]. split; [constructor|].
  split; [apply no_sign, (first_digit 52); unfold digit; lia|]. split; [apply no_sign, (first_digit 50); unfold digit; lia|reflexivity].
Qed.
(** Exactly the texts of a size are read, and as that size; every other text, or a rate of 0, is refused. *)
Theorem C77_parsed : forall s w h, parse_size s = Ok (w, h) <-> size_text s w h.
Proof. exact size_iff. Qed.
Print Assumptions C77_parsed.
Theorem C77_size : forall now ff fs a, (forall w h, ~ size_text (vo_size a) w h) -> video_template now ff fs a = Err EValue.
Proof. exact video_size_refused. Qed.
Print Assumptions C77_size.
Theorem C77_rate : forall now ff fs a w h, size_text (vo_size a) w h -> vo_rate a = 0 -> video_template now ff fs a = Err EZeroDiv.
Proof. exact video_rate_refused. Qed.
Print Assumptions C77_rate.
Example C77_size_ex : video_template 9 21 22 (mkVo None None 0 $"1920x1080x3" U8_422 25) = Err EValue /\ video_template 9 21 22 (mkVo None None 0 $"4x2" U8_422 0) = Err EZeroDiv /\
  parse_size $"+1_920x-3" = Ok (1920, -3) /\ map parse_size [$"1920_x1080"; $"_4x2"; $"1__0x2"; $"4x"; $"+ 4x2"; $"4 4x2"; $"0x10"] = repeat (Err EValue) 6 ++ [Ok (0, 10)].
Proof. vm_compute. auto. Qed.

(** From options and an input to a file: its grains are the frames, at the rate asked for from the start asked for, and its essence is the input. *)
Theorem C77_file : forall k first now ff fs a w h d out id created fuel,
  size_text (vo_size a) w h -> 0 < w -> 0 < h -> 0 < vo_rate a < 4294967296 -> member frame_formats (vo_format a) = true -> vo_format a <> H264 -> vo_format a <> AVCI ->
  is_uuid (or_else (vo_flow a) ff) = true -> is_uuid (or_else (vo_source a) fs) = true -> ts_fits (vo_start a) ->
  let size := size_for_format (vo_format a) w h in let c := first (vo_start a) (vo_rate a, 1) in 0 < size < 2147483500 ->
  bytes_ok d -> i64 (zlen d) -> (forall i, 0 <= i -> i * size < zlen d -> ts_fits (grid k (vo_rate a, 1) (c + i))) ->
  uuid_ok id -> dt_valid created = true -> prior out = [] -> (Z.to_nat (zlen d) < fuel)%nat ->
  exists t out' bs os, video_template now ff fs a = Ok (t, RawWrapper) /\ wrap_to_gsf id created t (grain_wrapper k first src_read now t (buffered d) fuel) out = (out', Ok tt) /\
    pieces size d bs /\ in_grains k (vo_rate a, 1) c t bs os /\
    (forall ids now seekable strict fwd, extract ids now seekable (mkFile (GsfEncState.o_data out') 0 strict fwd) = (if in_ids ids 1 then d else [], Ok tt)) /\
    (forall cf strict fwd, at_once cf -> exists s l, decode_file cf (mkFile (GsfEncState.o_data out') 0 strict fwd) = Ok (s, (l, s, Done)) /\
      Forall2 (fun o i => i_local i = 1 /\ comes_back 9 (GsfEncState.o_data out') o i) (if in_ids (k_ids cf) 1 then os else []) l).
Proof. exact video_file. Qed.
Print Assumptions C77_file.
Example C77_file_ex : match ta_run ta_video with
  | Ok (w, (out, r)) => r = Ok tt /\ map (fun o => getattr o $"origin_timestamp") (fst w) = [Ok (PTime 1000000000); Ok (PTime 1020000000)] /\
      extract None 5 true (mkFile (GsfEncState.o_data out) 0 false false) = (tx_input, Ok tt)
  | Err _ => False end.
Proof. vm_compute. auto. Qed.

(** Raw audio: two channels, 1920 samples and 48 kHz unless told otherwise; the duration is that of the samples. *)
Theorem C77_audio : forall now ff fs a, let n := or_else (ao_samples a) 1920 in let c := or_else (ao_channels a) 2 in let hz := or_else (ao_rate a) 48000 in
  ao_format a <> AAC -> member audio_formats (ao_format a) = true -> 0 <= n -> 0 <= c -> 0 < hz ->
  exists t q, audio_template now ff fs a = Ok (t, RawWrapper) /\ made t /\ lowest n hz q /\
    template_of (or_else (ao_flow a) ff) (or_else (ao_source a) fs) (ao_start a) (0, 1) q t /\
    attr_is t $"samples" (PInt n) /\ attr_is t $"channels" (PInt c) /\ attr_is t $"sample_rate" (PInt hz) /\ attr_is t $"cog_audio_format" (PInt (ao_format a)) /\
    expected_length t = Ok (size_for_audio_format (ao_format a) c n).
Proof. exact audio_templated. Qed.
Print Assumptions C77_audio.
Example C77_audio_ex : let t := ta_made (audio_template 9 21 22 (mkAo None None 0 (Some 1) (Some 441) 0x2 (Some 44100))) in
  map (getattr t) [$"duration"; $"samples"; $"channels"; $"sample_rate"] = map Ok [PFrac 1 100; PInt 441; PInt 1; PInt 44100] /\ expected_length t = Ok 882.
Proof. vm_compute. auto. Qed.
(** The grain wrapper spaces its grains by the template's rate. The templates for audio have none: it is 0 whatever the options, although
    every grain lasts for its samples. *)
Theorem C77_audio_rate_refuted : (forall now ff fs a t w, audio_template now ff fs a = Ok (t, w) -> attr_is t $"rate" (PFrac 0 1)) /\
  exists t, audio_template 9 21 22 no_audio_options = Ok (t, RawWrapper) /\ attr_is t $"rate" (PFrac 0 1) /\ attr_is t $"duration" (PFrac 1 25).
Proof. split; [exact audio_rate|]. exists (ta_made (audio_template 9 21 22 no_audio_options)). split; [vm_compute; reflexivity|]. split; vm_compute; reflexivity. Qed.
Print Assumptions C77_audio_rate_refuted.

(** AAC: the number of samples has to be given, although the wrapper has a default for it (1024); nothing else has to. *)
Theorem C77_aac : forall now ff fs a n, ao_format a = AAC -> ao_samples a = Some n -> 0 < or_else (ao_rate a) 1 ->
  exists t q, audio_template now ff fs a = Ok (t, AdtsWrapper) /\ o_class t = KCodedAudio /\ lowest n (or_else (ao_rate a) 1) q /\
    template_of (or_else (ao_flow a) ff) (or_else (ao_source a) fs) (ao_start a) (0, 1) q t /\ attr_is t $"samples" (PInt n) /\ attr_is t $"cog_audio_format" (PInt AAC).
Proof. exact aac_templated. Qed.
Print Assumptions C77_aac.
Theorem C77_aac_refuted : forall now ff fs a, ao_format a = AAC -> ao_samples a = None -> audio_template now ff fs a = Err EType.
Proof. exact aac_refused. Qed.
Print Assumptions C77_aac_refuted.
Example C77_aac_ex : audio_template 9 21 22 (mkAo None None 0 (Some 2) None AAC (Some 48000)) = Err EType /\
  getattr (ta_made (audio_template 9 21 22 (mkAo None None 0 None (Some 2048) AAC None))) $"duration" = Ok (PFrac 2048 1).
Proof. vm_compute. auto. Qed.
