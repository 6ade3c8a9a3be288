From Coq Require Import String Lia ZifyBool ZifyNat.
From Verif Require Import Base BaseProofs GsfPrim GsfPrimProofs GsfBlock GsfDecode CogEnums GsfEncode GsfSpec GsfFileSpec GsfEncState GsfEncSpec GsfEncodeProofs GsfEncFacts GsfEncFile GsfEncDecodeSpec PatternTime PatternSpec PyValueProofs Json JsonProofs VideoLayout LayoutProofs BuildSpec BuildMain BuildKw GrainSetSpec
  GrainGsf GrainGsfSpec GrainGsfRead GrainGsfFileSpec Wrap WrapSpec Tools ToolsSpec ToolsMain ToolsMore StrategyProofs StrategyDraw StrategyData StrategySaved ToolArgs ToolArgsSpec ToolArgsProofs ToolArgsMain.
From Verif Require Import PyValue GrainObj.
Local Open Scope list_scope.

(** *** Coded audio. *)
Definition aac_part (f : Z) (s c r : pv) : pv :=
  PDict [($"format", PInt f); ($"samples", s); ($"channels", c); ($"priming", PInt 0); ($"remainder", PInt 0); ($"sample_rate", r)].
Lemma aac_init now k f s c r : coded_audio_init 0 now (kw_grain $"coded_audio" now k [($"cog_coded_audio", aac_part f s c r)]) ANone = Ok (kw_obj KCodedAudio now k (aac_part f s c r) (Some []) None).
Proof. destruct k as [src flow origin sync creation [rn rd] [dn dd]]. destruct src, flow; vm_compute; reflexivity. Qed.
Theorem aac_templated now ff fs a n : ao_format a = AAC -> ao_samples a = Some n -> 0 < or_else (ao_rate a) 1 ->
  exists t q, audio_template now ff fs a = Ok (t, AdtsWrapper) /\ o_class t = KCodedAudio /\ lowest n (or_else (ao_rate a) 1) q /\
    template_of (or_else (ao_flow a) ff) (or_else (ao_source a) fs) (ao_start a) (0, 1) q t /\ attr_is t $"samples" (PInt n) /\ attr_is t $"cog_audio_format" (PInt AAC).
Proof.
  intros F N R. unfold audio_template. rewrite F, N. change (AAC =? AAC) with true. cbv iota zeta.
  assert (Q : exists q, ratio_opt (Some n) (ao_rate a) = Ok q /\ lowest n (or_else (ao_rate a) 1) q).
  { destruct (ao_rate a) as [r|]; cbn [ratio_opt or_else] in *.
    - exists (fraction n r). split; [|apply fraction_lowest; exact R]. unfold ratio. replace (r =? 0) with false by lia. replace (r <? 0) with false by lia. reflexivity.
    - exists (n, 1). split; [reflexivity|]. unfold lowest. cbn [fst snd]. rewrite Z.gcd_1_r. lia. }
  destruct Q as (q & E & L). rewrite E. cbn [rbind]. set (k := mkKw _ _ _ _ _ _ q). match goal with |- context [($"cog_coded_audio", ?p)] => change p with (aac_part AAC (PInt n) (opt_int (ao_channels a)) (opt_int (ao_rate a))) end.
  rewrite aac_init. cbn [rbind]. eexists _, q. split; [reflexivity|]. split; [reflexivity|]. split; [exact L|]. destruct L as (L1 & L2 & _).
  split; [|split; reflexivity]. apply (templated _ _ _ _ _ _ now _ (kw_common KCodedAudio now k _ _ _ ltac:(discriminate))); cbn [fst snd]; trivial; lia.
Qed.
Theorem aac_refused now ff fs a : ao_format a = AAC -> ao_samples a = None -> audio_template now ff fs a = Err EType.
Proof. intros F N. unfold audio_template. rewrite F, N. reflexivity. Qed.

Theorem audio_rate now ff fs a t w : audio_template now ff fs a = Ok (t, w) -> attr_is t $"rate" (PFrac 0 1).
Proof.
  unfold audio_template. destruct (ao_format a =? AAC).
  - intros E. apply rbind_ok in E as (q & _ & E). match type of E with context [($"cog_coded_audio", ?p)] => change p with (aac_part (ao_format a) (opt_int (ao_samples a)) (opt_int (ao_channels a)) (opt_int (ao_rate a))) in E end.
    rewrite aac_init in E. cbn [rbind] in E. apply Ok_eq in E. match type of E with (?x, _) = _ => assert (X : t = x) by congruence end. rewrite X.
    apply (ca_rate _ _ _ _ (kw_common KCodedAudio now _ _ _ _ ltac:(discriminate)) 0 1); reflexivity.
  - cbv zeta. intros E. apply rbind_ok in E as (q & _ & E). apply rbind_ok in E as (o & K & E). assert (o = t) by congruence. subst o. destruct (audio_kw _ _ _ _ _ _ _ _ K) as (C & _).
    apply (ca_rate _ _ _ _ C 0 1); reflexivity.
Qed.

(** ** A raw video template can be written. *)
Lemma read_comps_of l : map_res read_comp (map comp_dict l) = Ok (map (fun c => mkComp (vc_width c) (vc_height c) (vc_stride c) 0 (vc_length c)) l).
Proof. induction l as [|c l IH]; [reflexivity|]. cbn [map map_res]. rewrite IH. reflexivity. Qed.
Definition small_comp (c : vcomp) : Prop := u32 (vc_width c) /\ u32 (vc_height c) /\ u32 (vc_stride c) /\ u32 (vc_length c).
Lemma shiftr_small a n m : 0 <= a < m -> 0 <= n -> 0 <= Z.shiftr a n < m.
Proof. intros A N. rewrite Z.shiftr_div_pow2 by exact N. pose proof (Z.pow_pos_nonneg 2 n ltac:(lia) N). set (q := 2 ^ n) in *. clearbody q. split; [apply Z.div_pos; lia|]. apply Z.div_lt_upper_bound; [lia|]. assert (1 * m <= q * m) by (apply Z.mul_le_mono_nonneg_r; lia). lia. Qed.
Lemma land1 a : 0 <= Z.land a 1 <= 1.
Proof. replace (Z.land a 1) with (a mod 2) by (symmetry; apply (Z.land_ones a 1); lia). pose proof (Z.mod_pos_bound a 2 ltac:(lia)). lia. Qed.
Lemma comps_small f w h : 0 < w -> 0 < h -> size_for_format f w h < 4294967296 -> Forall small_comp (components_for_format f w h) /\ zlen (components_for_format f w h) <= 3 /\ (0 < size_for_format f w h -> w < 4294967296 /\ h < 4294967296).
Proof.
  intros W H. unfold size_for_format, components_for_format. destruct (Z.land (Z.shiftr f 8) 1 =? 0).
  - cbv zeta. set (hs := Z.land f 1). set (vs := Z.land (Z.shiftr f 1) 1). assert (HS : 0 <= hs <= 1) by apply land1. assert (VS : 0 <= vs <= 1) by apply land1.
    assert (B : planar_bpv f = 1 \/ planar_bpv f = 2 \/ planar_bpv f = 4) by (unfold planar_bpv; destruct (_ =? 0); [|destruct (_ =? 4)]; auto). set (bp := planar_bpv f) in *. clearbody bp hs vs.
    intros S. set (x := Z.shiftr (w * h) (hs + vs)) in *. assert (X : 0 <= x) by (apply Z.shiftr_nonneg; nia). clearbody x.
    assert (P : w * h * bp < 4294967296 /\ x * bp < 4294967296) by nia. assert (WB : w * bp < 4294967296) by nia. assert (W1 : w < 4294967296) by nia. assert (H1 : h < 4294967296) by nia.
    pose proof (shiftr_small w hs 4294967296 ltac:(lia) ltac:(lia)) as SW. pose proof (shiftr_small h vs 4294967296 ltac:(lia) ltac:(lia)) as SH.
    assert (SW2 : 0 <= Z.shiftr w hs <= w). { pose proof (shiftr_small w hs (w + 1) ltac:(lia) ltac:(lia)). lia. } set (sw := Z.shiftr w hs) in *. set (sh := Z.shiftr h vs) in *. clearbody sw sh.
    split; [|split; [unfold zlen; cbn; lia|intros _; lia]].
    repeat constructor; unfold u32; cbn [vc_width vc_height vc_stride vc_length]; nia.
  - repeat (match goal with |- context [if ?b then _ else _] => destruct b end; [intros S; split; [repeat constructor; unfold u32; cbn [vc_width vc_height vc_stride vc_length]|split; [unfold zlen; cbn; lia|intros _]]|]);
      [..|intros S; split; [constructor|split; [unfold zlen; cbn; lia|lia]]].
    all: try (assert (V : w <= (w + 47) / 48 * 128) by (pose proof (Z.mul_succ_div_gt (w + 47) 48 ltac:(lia)); lia)); try nia.
Qed.
Lemma small_block g v : grain_ok g -> g_body g = BVideo v -> g_tils g = [] -> zlen (v_comps v) <= 3 -> zlen (gbytes 9 (1, g)) <= 198 + zlen (opt_bytes (g_data g)).
Proof.
  intros G B T C. destruct (enc_grain_ok 9 1 g G) as [bs E]. unfold gbytes. cbn [fst snd]. rewrite E. unfold enc_grain in E. rewrite B, T in E.
  destruct (enc_body (BVideo v)) as [body|] eqn:X; [|discriminate E]. cbn [rbind] in E. apply Ok_eq in E. subst bs. apply enc_body_blocks in X as [_ Y].
  destruct G as ((S & _) & (F & _) & _). unfold enc_uuid. change (zlen (enc_tils [])) with 0. rewrite !zlen_app, !enc_uint_len, !enc_times_len, !enc_rational_len, S, F, <- Y.
  change (zlen (enc_tils [])) with 0. change (zlen T_grai) with 4. change (zlen T_gbhd) with 4. change (zlen T_grdt) with 4. cbn [body_size]. unfold vghd_size. pose proof (zlen_nonneg (v_comps v)).
  change (9 =? 7) with false. cbv iota. destruct (zlen (v_comps v) >? 0); lia.
Qed.
Lemma video_template_writable now flow source start r f w h t : kw_video now (tool_kw flow source start (r, 1) (1, r)) f w h 0xfffffffe ANone = Ok t ->
  0 < w -> 0 < h -> 0 < size_for_format f w h < 4294967296 -> member frame_formats f = true -> is_uuid flow = true -> is_uuid source = true -> ts_fits start -> 0 < r < 4294967296 ->
  exists g, writable t g /\ g_rate g = (r, 1) /\ g_origin g = start /\ zlen (gbytes 9 (1, g)) <= 198 + size_for_format f w h.
Proof.
  intros E W H S M U1 U2 T R. rewrite video_shape in E by lia. apply Ok_eq in E. set (part := video_part_kw f w h 0xfffffffe (PList (map comp_dict (components_for_format f w h)))) in *.
  set (k := tool_kw flow source start (r, 1) (1, r)) in *. set (z := zeros (Z.to_nat (size_for_format f w h))) in *.
  destruct (comps_small f w h W H ltac:(lia)) as (CS & CN & WH). specialize (WH ltac:(lia)). set (cs := map (fun c => mkComp (vc_width c) (vc_height c) (vc_stride c) 0 (vc_length c)) (components_for_format f w h)).
  assert (RB : read_body t = Ok (BVideo (mkV f 0xfffffffe w h 0 None None cs))).
  { subst t. rewrite body_of by discriminate. unfold read_video, attr, part. rewrite (video_format_attr now k f w h 0xfffffffe _ (Some z) None M), (video_layout_attr now k f w h 0xfffffffe _ (Some z) None eq_refl).
    pose proof (read_comps_of (components_for_format f w h)) as C1. fold cs in C1. set (ccs := map comp_dict (components_for_format f w h)) in *. clearbody ccs cs. cbn [rbind to_int].
    assert (X : components (kw_obj KVideo now k (video_part_kw f w h 0xfffffffe (PList ccs)) (Some z) None) = Ok ccs) by reflexivity.
    rewrite X. cbn [rbind]. rewrite C1. reflexivity. }
  assert (D : get_data t = Ok (Some z)) by (subst t; reflexivity). assert (L : getattr t $"length" = Ok (PInt (zlen z))) by (subst t; reflexivity). assert (N : labels t = Ok []) by (subst t; apply no_labels).
  assert (C : common_are k now $"video" t) by (subst t; apply (kw_common KVideo); discriminate). assert (O : of_own_type t) by (subst t; apply kw_own; discriminate). assert (KC : o_class t = KVideo) by (subst t; reflexivity).
  clearbody part. clear E. destruct C as [Ct Cs Cf Cc Co Cy Cr Cd]. pose proof (Z.gcd_1_r r) as G1. pose proof (Z.gcd_1_l r) as G2.
  destruct (uuid_written source) as [_ S2]; [unfold uuid_drawn; change (2 ^ 128) with 340282366920938463463374607431768211456; unfold is_uuid in U2; lia|].
  destruct (uuid_written flow) as [_ F2]; [unfold uuid_drawn; change (2 ^ 128) with 340282366920938463463374607431768211456; unfold is_uuid in U1; lia|].
  exists (grain_of source flow start start (r, 1) (1, r) (BVideo (mkV f 0xfffffffe w h 0 None None cs)) (zlen z) (Some z)). match goal with |- context [writable t ?g] => set (gr := g) end.
  enough (WR : writable t gr).
  { split; [exact WR|]. split; [reflexivity|]. split; [reflexivity|]. destruct WR as (_ & _ & G & _). pose proof (small_block gr _ G eq_refl eq_refl) as SB. cbn [v_comps] in SB. unfold cs in SB.
    unfold zlen in SB at 1. rewrite map_length in SB. specialize (SB CN). change (opt_bytes (g_data gr)) with z in SB. unfold z in SB at 1. rewrite zlen_zeros in SB. lia. }
  unfold gr. split; [exact O|]. split.
  - unfold read_grain, attr. rewrite (proj1 (Cs source eq_refl)), (Cf flow eq_refl), Co, Cy, (Cr r 1 eq_refl ltac:(lia) G1), (Cd 1 r eq_refl ltac:(lia) G2), N, RB, L, D. cbn [rbind as_id as_time as_frac map_res to_int].
    rewrite U1, U2. reflexivity.
  - split; [|rewrite KC; discriminate]. unfold grain_ok, grain_of. cbn [g_src g_flow g_origin g_sync g_rate g_dur g_tils g_body g_len g_data]. split; [exact S2|]. split; [exact F2|].
    split; [exact T|]. split; [exact T|]. split; [split; [reflexivity|exact G1]|]. split; [split; cbn [fst snd]; lia|]. split; [split; [cbn [snd]; lia|exact G2]|]. split; [split; cbn [fst snd]; lia|].
    split; [constructor|]. split; [unfold u16, zlen; cbn; lia|]. split; [|split; [reflexivity|apply bytes_ok_zeros]].
    cbn [gbody_ok]. unfold vmeta_ok. cbn [v_format v_layout v_width v_height v_ext v_sar v_par v_comps ratio_ok]. unfold u32. split; [exact M|]. split; [reflexivity|]. split; [lia|]. split; [lia|]. split; [lia|]. split; [exact I|]. split; [exact I|].
    unfold cs. split; [|unfold u16, zlen in *; rewrite map_length; lia]. clear - CS. induction CS as [|c l X _ IH]; [constructor|]. cbn [map]. constructor; [exact X|exact IH].
Qed.
(** ** From the options and a file of frames to a GSF file. *)
Theorem video_file k first now ff fs a w h d out id created fuel :
  size_text (vo_size a) w h -> 0 < w -> 0 < h -> 0 < vo_rate a < 4294967296 -> member frame_formats (vo_format a) = true -> vo_format a <> H264 -> vo_format a <> AVCI ->
  is_uuid (or_else (vo_flow a) ff) = true -> is_uuid (or_else (vo_source a) fs) = true -> ts_fits (vo_start a) ->
  let size := size_for_format (vo_format a) w h in let c := first (vo_start a) (vo_rate a, 1) in 0 < size < 2147483500 ->
  bytes_ok d -> i64 (zlen d) -> (forall i, 0 <= i -> i * size < zlen d -> ts_fits (grid k (vo_rate a, 1) (c + i))) ->
  uuid_ok id -> dt_valid created = true -> prior out = [] -> (Z.to_nat (zlen d) < fuel)%nat ->
  exists t out' bs os, video_template now ff fs a = Ok (t, RawWrapper) /\ wrap_to_gsf id created t (grain_wrapper k first src_read now t (buffered d) fuel) out = (out', Ok tt) /\
    pieces size d bs /\ in_grains k (vo_rate a, 1) c t bs os /\
    (forall ids now seekable strict fwd, extract ids now seekable (mkFile (GsfEncState.o_data out') 0 strict fwd) = (if in_ids ids 1 then d else [], Ok tt)) /\
    (forall cf strict fwd, at_once cf -> exists s l, decode_file cf (mkFile (GsfEncState.o_data out') 0 strict fwd) = Ok (s, (l, s, Done)) /\
      Forall2 (fun o i => i_local i = 1 /\ comes_back 9 (GsfEncState.o_data out') o i) (if in_ids (k_ids cf) 1 then os else []) l).
Proof.
  intros S W H R M N1 N2 U1 U2 T size c Z B I TF U D O F. destruct (video_templated now ff fs a w h S ltac:(lia) ltac:(lia) ltac:(lia) M N1 N2) as (t & E & Mt & Ct & _ & _ & _ & _ & _ & X).
  assert (K : kw_video now (tool_kw (or_else (vo_flow a) ff) (or_else (vo_source a) fs) (vo_start a) (vo_rate a, 1) (1, vo_rate a)) (vo_format a) w h 0xfffffffe ANone = Ok t).
  { revert E. unfold video_template. rewrite (size_parsed _ _ _ S), (one_over _ (proj1 R)). cbn [rbind]. replace ((vo_format a =? H264) || (vo_format a =? AVCI)) with false by lia. intros E.
    apply rbind_ok in E as (t' & E & Q). assert (t' = t) by congruence. subst t'. exact E. }
  destruct (video_template_writable _ _ _ _ _ _ _ _ _ K W H ltac:(fold size; lia) M U1 U2 T R) as (g & Wg & Rg & Og & GB). fold size in GB.
  destruct (wrapped_file k first now t g size d out id created fuel Mt ltac:(rewrite Ct; discriminate) Wg ltac:(lia) X (proj1 Z) B I) as (out' & bs & os & A1 & A2 & A3 & A4 & A5); trivial.
  { rewrite Rg, Og. exact TF. }
  exists t, out', bs, os. rewrite Rg, Og in A3. auto 8.
Qed.
