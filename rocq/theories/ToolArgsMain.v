From Coq Require Import String Lia ZifyBool ZifyNat.
From Verif Require Import Base BaseProofs GsfPrim GsfPrimProofs GsfBlock GsfDecode CogEnums GsfEncode GsfSpec GsfFileSpec GsfEncState GsfEncSpec GsfEncFile GsfEncDecodeSpec PatternTime PatternSpec PyValueProofs Json JsonProofs VideoLayout LayoutProofs BuildSpec BuildMain BuildKw GrainSetSpec
  GrainGsf GrainGsfSpec GrainGsfRead GrainGsfFileSpec Wrap WrapSpec Tools ToolsSpec ToolsMain ToolsMore StrategyProofs StrategyDraw StrategySaved ToolArgs ToolArgsSpec ToolArgsProofs.
From Verif Require Import PyValue GrainObj.
Local Open Scope list_scope.

(** ** Fractions. *)
Lemma fraction_lowest n d : 0 < d -> lowest n d (fraction n d).
Proof.
  intros D. unfold lowest, fraction. cbn [fst snd]. pose proof (Z.gcd_nonneg n d) as G. destruct (Z.eq_dec (Z.gcd n d) 0) as [E|E]; [apply Z.gcd_eq_0_r in E; lia|].
  pose proof (Z.gcd_div_gcd n d (Z.gcd n d) E eq_refl) as C. destruct (Z.gcd_divide_l n d) as [x X], (Z.gcd_divide_r n d) as [y Y]. set (g := Z.gcd n d) in *. clearbody g. assert (P : 0 < g) by lia.
  assert (X1 : n / g = x) by (rewrite X; apply Z.div_mul; lia). assert (Y1 : d / g = y) by (rewrite Y; apply Z.div_mul; lia). rewrite X1, Y1 in *. split; [nia|]. split; [exact C|]. rewrite X, Y. ring.
Qed.
Lemma one_over r : 0 < r -> ratio 1 r = Ok (1, r).
Proof. intros R. unfold ratio. replace (r =? 0) with false by lia. replace (r <? 0) with false by lia. unfold fraction. rewrite Z.gcd_1_l, !Z.div_1_r. reflexivity. Qed.

(** ** The templates. *)
Definition tool_kw (flow source start : Z) (r d : Z * Z) : kw := mkKw (Some source) (Some flow) (Some start) None None r d.
Lemma templated flow source start r d type now t : common_are (tool_kw flow source start r d) now type t -> 0 < snd r -> Z.gcd (fst r) (snd r) = 1 -> 0 < snd d -> Z.gcd (fst d) (snd d) = 1 ->
  template_of flow source start r d t.
Proof.
  intros [Ct Cs Cf Cc Co Cy Cr Cd] R1 R2 D1 D2. destruct r as [rn rd], d as [dn dd]. cbn [fst snd] in *.
  constructor; unfold attr_is; [exact (Cf flow eq_refl)|exact (proj1 (Cs source eq_refl))|exact Co|exact Cy|exact (Cr rn rd eq_refl R1 R2)|exact (Cd dn dd eq_refl D1 D2)].
Qed.
Theorem video_templated now ff fs a w h : size_text (vo_size a) w h -> 0 <= w -> 0 <= h -> 0 < vo_rate a -> member frame_formats (vo_format a) = true -> vo_format a <> H264 -> vo_format a <> AVCI ->
  exists t, video_template now ff fs a = Ok (t, RawWrapper) /\ made t /\ o_class t = KVideo /\
    template_of (or_else (vo_flow a) ff) (or_else (vo_source a) fs) (vo_start a) (vo_rate a, 1) (1, vo_rate a) t /\
    attr_is t $"width" (PInt w) /\ attr_is t $"height" (PInt h) /\ attr_is t $"cog_frame_format" (PInt (vo_format a)) /\ attr_is t $"cog_frame_layout" (PInt 0xfffffffe) /\
    expected_length t = Ok (size_for_format (vo_format a) w h).
Proof.
  intros S W H R M N1 N2. unfold video_template. rewrite (size_parsed _ _ _ S), (one_over _ R). cbn [rbind].
  replace ((vo_format a =? H264) || (vo_format a =? AVCI)) with false by lia. set (k := mkKw _ _ _ _ _ _ _). pose proof (size_nonneg (vo_format a) w h W H) as Z.
  destruct (proj2 (video_kw_total now k (vo_format a) w h 0xfffffffe ANone) (fun _ => Z)) as [t E]. rewrite E. cbn [rbind]. exists t. split; [reflexivity|].
  split; [exact (made_video _ _ _ _ _ _ _ _ E)|]. split; [exact (video_class _ _ _ _ _ _ _ _ E)|]. destruct (video_kw _ _ _ _ _ _ _ _ E) as (C & P & A1 & A2 & A3 & A4 & _).
  split; [apply (templated _ _ _ _ _ _ _ _ C); cbn [fst snd]; try lia; [apply Z.gcd_1_r|apply Z.gcd_1_l]|]. split; [exact A1|]. split; [exact A2|]. split; [exact (A3 M)|]. split; [exact (A4 eq_refl)|].
  destruct (expected_video _ _ _ _ _ _ _ _ E W H) as (e & b & E' & G & X & _). rewrite X. f_equal. assert (e = t) by congruence. subst e. cbn [payload_is] in P. destruct P as (_ & (b' & B & L & _) & _).
  congruence.
Qed.
Theorem coded_templated now ff fs a w h : size_text (vo_size a) w h -> 0 < vo_rate a -> vo_format a = H264 \/ vo_format a = AVCI ->
  exists t, video_template now ff fs a = Ok (t, H264Wrapper) /\ made t /\
    template_of (or_else (vo_flow a) ff) (or_else (vo_source a) fs) (vo_start a) (vo_rate a, 1) (1, vo_rate a) t /\
    attr_is t $"origin_width" (PInt w) /\ attr_is t $"origin_height" (PInt h) /\ attr_is t $"coded_width" (PInt 0) /\ attr_is t $"coded_height" (PInt 0) /\
    attr_is t $"cog_frame_format" (PInt (vo_format a)) /\ get_data t = Ok (Some []).
Proof.
  intros S R M. unfold video_template. rewrite (size_parsed _ _ _ S), (one_over _ R). cbn [rbind].
  replace ((vo_format a =? H264) || (vo_format a =? AVCI)) with true by lia. set (k := mkKw _ _ _ _ _ _ _). rewrite coded_video_shape. cbn [rbind].
  match goal with |- context [Ok (?x, H264Wrapper)] => set (t := x) end. exists t.
  assert (E : kw_coded_video now k (vo_format a) w h (Some 0) (Some 0) None None None 0xfffffffe None ANone = Ok t) by apply coded_video_shape.
  split; [reflexivity|]. split; [exact (made_coded_video _ _ _ _ _ _ _ _ _ _ _ _ _ _ E)|]. destruct (coded_video_kw _ _ _ _ _ _ _ _ _ _ _ _ _ _ E) as (C & P & A1 & A2 & A3 & A4 & _ & _ & _ & A5 & _).
  split; [apply (templated _ _ _ _ _ _ _ _ C); cbn [fst snd]; try lia; [apply Z.gcd_1_r|apply Z.gcd_1_l]|]. split; [exact A1|]. split; [exact A2|]. split; [exact A3|]. split; [exact A4|].
  split; [apply A5; destruct M as [-> | ->]; reflexivity|reflexivity].
Qed.
Theorem video_size_refused now ff fs a : (forall w h, ~ size_text (vo_size a) w h) -> video_template now ff fs a = Err EValue.
Proof. intros O. unfold video_template. rewrite (size_refused _ O). reflexivity. Qed.
Theorem video_rate_refused now ff fs a w h : size_text (vo_size a) w h -> vo_rate a = 0 -> video_template now ff fs a = Err EZeroDiv.
Proof. intros S R. unfold video_template. rewrite (size_parsed _ _ _ S), R. reflexivity. Qed.

(** *** Audio. *)
Theorem audio_templated now ff fs a : let n := or_else (ao_samples a) 1920 in let c := or_else (ao_channels a) 2 in let hz := or_else (ao_rate a) 48000 in
  ao_format a <> AAC -> member audio_formats (ao_format a) = true -> 0 <= n -> 0 <= c -> 0 < hz ->
  exists t q, audio_template now ff fs a = Ok (t, RawWrapper) /\ made t /\ lowest n hz q /\
    template_of (or_else (ao_flow a) ff) (or_else (ao_source a) fs) (ao_start a) (0, 1) q t /\
    attr_is t $"samples" (PInt n) /\ attr_is t $"channels" (PInt c) /\ attr_is t $"sample_rate" (PInt hz) /\ attr_is t $"cog_audio_format" (PInt (ao_format a)) /\
    expected_length t = Ok (size_for_audio_format (ao_format a) c n).
Proof.
  intros n c hz F M N C Hz. unfold audio_template. replace (ao_format a =? AAC) with false by lia. change (or_int (ao_samples a) 1920) with n. change (or_int (ao_channels a) 2) with c. change (or_int (ao_rate a) 48000) with hz.
  cbv zeta. assert (Q : ratio n hz = Ok (fraction n hz)). { unfold ratio. replace (hz =? 0) with false by lia. replace (hz <? 0) with false by lia. reflexivity. }
  rewrite Q. cbn [rbind]. pose proof (fraction_lowest n hz Hz) as L. set (q := fraction n hz) in *. set (k := mkKw _ _ _ _ _ _ q).
  assert (Z : 0 <= size_for_audio_format (ao_format a) c n) by (apply audio_size_nonneg; assumption).
  destruct (proj2 (audio_kw_total now k (ao_format a) n c hz ANone) (fun _ => Z)) as [t E]. rewrite E. cbn [rbind]. exists t, q. split; [reflexivity|].
  split; [exact (made_audio _ _ _ _ _ _ _ _ E)|]. split; [exact L|]. destruct (audio_kw _ _ _ _ _ _ _ _ E) as (Cm & P & A1 & A2 & A3 & A4). destruct L as (L1 & L2 & _).
  split; [apply (templated _ _ _ _ _ _ _ _ Cm); cbn [fst snd]; trivial; lia|]. split; [exact A1|]. split; [exact A2|]. split; [exact A3|]. split; [exact (A4 M)|].
  destruct (expected_audio _ _ _ _ _ _ _ _ E M N C) as (e & b & E' & G & X & _). rewrite X. f_equal. assert (e = t) by congruence. subst e. cbn [payload_is] in P. destruct P as (_ & (b' & B & L & _) & _).
  congruence.
Qed.
