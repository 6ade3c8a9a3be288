(** The colour space conversions. *)
From Coq Require Import Lia ZifyBool ZifyNat.
From Verif Require Import Base BaseProofs CogEnums VideoLayout LayoutProofs NpView NpViewProofs NpSpec NpGrainProofs NpConvert NpConvSpec NpConvProofs V210Proofs NpTable NpTheorems NpDepth ColourSpec.

Lemma exact_accurate bits : accurate bits (exact_oracle bits).
Proof. intros k a b c _ _ _ _. exists (product bits k a b c), 1000000. split; [lia|]. split; [lia|]. reflexivity. Qed.

(** Clipped at zero. *)
Lemma clipped m t : whole_part m t -> m - 1001000 < 1000000 * Z.max t 0 /\ (1000000 * Z.max t 0 <= m + 1000 \/ t <= 0 /\ Z.max t 0 = 0).
Proof.
  intros (p & q & Q & A & ->). destruct (Z_le_gt_dec 0 p) as [P|P].
  - rewrite Z.quot_div_nonneg by lia. pose proof (Z.div_mod p q ltac:(lia)) as E. pose proof (Z.mod_pos_bound p q Q) as M. pose proof (Z.div_pos p q P Q) as D. set (t := p / q) in *. set (r := p mod q) in *. clearbody t r. rewrite Z.max_l by lia. split.
    + nia.
    + left. nia.
  - assert (T : Z.quot p q <= 0) by (rewrite <- (Z.opp_involutive p), Z.quot_opp_l by lia; pose proof (Z.quot_pos (- p) q ltac:(lia) Q); lia). rewrite Z.max_r by lia. split; [nia|]. right. split; [exact T|reflexivity].
Qed.
Lemma kept m t : whole_part m t -> 0 <= m -> truncated m (Z.max t 0).
Proof. intros W M. destruct (clipped m t W) as [L [U|[_ Z]]]; unfold truncated; [lia|]. rewrite Z in *. lia. Qed.

(** RGB to YUV: every product is in the range of the samples. *)
Theorem to_yuv fuel o g f d : has_kind g (rgb444 d) -> In (f, yuv444 d) kinds -> below g (rgb444 d) -> accurate d o ->
  exists g', convert (S fuel) conversions o g f = Ok g' /\ has_kind g' (yuv444 d) /\ same_size g g' /\ below g' (yuv444 d) /\
    forall n x y, In n [CY; CU; CV] -> in_comp (yuv444 d) g' n x y -> truncated (product d (product_of n) (sample g CR x y) (sample g CG x y) (sample g CB x y)) (sample g' n x y).
Proof.
  intros K F B A. assert (NE : g_fmt g <> f).
  { intros E. destruct K as [K _]. rewrite E in K. pose proof (kind_unique f _ _ K F) as Q. discriminate Q. }
  assert (P : prim_for (rgb444 d) (yuv444 d) = Some KRgbToYuv) by (unfold prim_for; cbn [k_model k_depth yuv444 rgb444]; rewrite Z.eqb_refl; reflexivity).
  destruct (convert_prim fuel o KRgbToYuv g (rgb444 d) f (yuv444 d) K F NE P) as (g' & E & GF & K' & [SW SH] & S); [split; apply Z.mod_1_r|split; apply Z.mod_1_r|].
  assert (DP : 1 <= d <= 8 * g_item g') by exact (depth_pos g' (yuv444 d) K').
  assert (M : 2 ^ d = 2 * 2 ^ (d - 1)) by (rewrite <- Z.pow_succ_r by lia; f_equal; lia). assert (M0 : 0 < 2 ^ (d - 1)) by (apply Z.pow_pos_nonneg; lia).
  assert (MI : 2 ^ d <= 2 ^ (8 * g_item g')) by (apply Z.pow_le_mono_r; lia).
  assert (V : forall n x y, In n [CY; CU; CV] -> in_comp (yuv444 d) g' n x y ->
    truncated (product d (product_of n) (sample g CR x y) (sample g CG x y) (sample g CB x y)) (sample g' n x y) /\ 0 <= sample g' n x y < 2 ^ d).
  { intros n x y N I. rewrite (S n x y N I). cbn [meaning k_depth yuv444].
    assert (IN : forall c, In c [CR; CG; CB] -> 0 <= sample g c x y < 2 ^ d).
    { intros c C. apply (B c x y C). destruct I as [IX IY]. cbn [In] in N, C. unfold in_comp, comp_w, comp_h in *. rewrite SW, SH. repeat (destruct C as [<-|C]; [|]); try destruct C; repeat (destruct N as [<-|N]; [|]); try destruct N; cbn [k_hs k_vs yuv444] in *; rewrite ?Z.div_1_r in *; split; assumption. }
    pose proof (IN CR ltac:(cbn [In]; tauto)) as HR. pose proof (IN CG ltac:(cbn [In]; tauto)) as HG. pose proof (IN CB ltac:(cbn [In]; tauto)) as HB.
    set (r := sample g CR x y) in *. set (gr := sample g CG x y) in *. set (bl := sample g CB x y) in *. clearbody r gr bl.
    assert (KK : match n with CY => 0 | CU => 1 | _ => 2 end = product_of n) by (cbn [In] in N; repeat (destruct N as [<-|N]; [reflexivity|]); destruct N). rewrite KK.
    assert (RG : 0 <= product_of n < 3) by (cbn [In] in N; repeat (destruct N as [<-|N]; [cbn [product_of]; lia|]); destruct N).
    pose proof (A (product_of n) r gr bl ltac:(lia) HR HG HB) as W. set (p := product d (product_of n) r gr bl) in *.
    assert (PB : 0 <= p <= 1000000 * 2 ^ d - 500000).
    { unfold p, product. cbn [In] in N. repeat (destruct N as [<-|N]; [cbn [product_of Z.eqb Pos.eqb]; lia|]); destruct N. }
    pose proof (kept p _ W (proj1 PB)) as T. unfold truncated in T. set (t := Z.max (o_matrix o (product_of n) r gr bl) 0) in *.
    assert (T0 : 0 <= t) by (unfold t; lia). clearbody t p. rewrite Z.min_l by lia. rewrite Z.mod_small by lia. split; [exact T|lia]. }
  exists g'. split; [exact E|]. split; [exact K'|]. split; [split; assumption|]. split; [intros n x y N I; exact (proj2 (V n x y N I))|]. intros n x y N I. exact (proj1 (V n x y N I)).
Qed.

(** YUV to RGB: colours that there are. The others: below zero is zero, above is 2^depth, which is 0 if that is no sample of the type. *)
Theorem to_rgb fuel o g f d : has_kind g (yuv444 d) -> In (f, rgb444 d) kinds -> below g (yuv444 d) -> accurate d o ->
  exists g', convert (S fuel) conversions o g f = Ok g' /\ has_kind g' (rgb444 d) /\ same_size g g' /\
    forall n x y, In n [CR; CG; CB] -> in_comp (rgb444 d) g' n x y ->
      let p := product d (product_of n) (sample g CY x y) (sample g CU x y) (sample g CV x y) in
      (0 <= p < 1000000 * 2 ^ d - 1000 -> truncated p (sample g' n x y) /\ 0 <= sample g' n x y < 2 ^ d) /\
      (p <= 0 -> sample g' n x y = 0) /\
      (1000000 * 2 ^ d + 1001000 <= p -> sample g' n x y = 2 ^ d mod 2 ^ (8 * g_item g')).
Proof.
  intros K F B A. assert (NE : g_fmt g <> f).
  { intros E. destruct K as [K _]. rewrite E in K. pose proof (kind_unique f _ _ K F) as Q. discriminate Q. }
  assert (P : prim_for (yuv444 d) (rgb444 d) = Some KYuvToRgb) by (unfold prim_for; cbn [k_model k_depth yuv444 rgb444]; rewrite Z.eqb_refl; reflexivity).
  destruct (convert_prim fuel o KYuvToRgb g (yuv444 d) f (rgb444 d) K F NE P) as (g' & E & GF & K' & [SW SH] & S); [split; apply Z.mod_1_r|split; apply Z.mod_1_r|].
  assert (DP : 1 <= d <= 8 * g_item g') by exact (depth_pos g' (rgb444 d) K').
  assert (M0 : 0 < 2 ^ d) by (apply Z.pow_pos_nonneg; lia).
  assert (MI : 2 ^ d <= 2 ^ (8 * g_item g')) by (apply Z.pow_le_mono_r; lia).
  exists g'. split; [exact E|]. split; [exact K'|]. split; [split; assumption|]. intros n x y N I. cbv zeta. rewrite (S n x y N I). cbn [meaning k_depth yuv444].
  assert (IN : forall c, In c [CY; CU; CV] -> 0 <= sample g c x y < 2 ^ d).
  { intros c C. apply (B c x y C). destruct I as [IX IY]. cbn [In] in N, C. unfold in_comp, comp_w, comp_h in *. rewrite SW, SH. repeat (destruct C as [<-|C]; [|]); try destruct C; repeat (destruct N as [<-|N]; [|]); try destruct N; cbn [k_hs k_vs yuv444] in *; rewrite ?Z.div_1_r in *; split; assumption. }
  pose proof (IN CY ltac:(cbn [In]; tauto)) as HR. pose proof (IN CU ltac:(cbn [In]; tauto)) as HG. pose proof (IN CV ltac:(cbn [In]; tauto)) as HB.
  set (r := sample g CY x y) in *. set (gr := sample g CU x y) in *. set (bl := sample g CV x y) in *. clearbody r gr bl.
  assert (KK : match n with CR => 3 | CG => 4 | _ => 5 end = product_of n) by (cbn [In] in N; repeat (destruct N as [<-|N]; [reflexivity|]); destruct N). rewrite KK.
  assert (RG : 3 <= product_of n < 6) by (cbn [In] in N; repeat (destruct N as [<-|N]; [cbn [product_of]; lia|]); destruct N).
  pose proof (A (product_of n) r gr bl ltac:(lia) HR HG HB) as W. set (p := product d (product_of n) r gr bl) in *. clearbody p.
  split; [|split].
  - intros PB. pose proof (kept p _ W (proj1 PB)) as T. unfold truncated in T. set (t := Z.max (o_matrix o (product_of n) r gr bl) 0) in *.
    assert (T0 : 0 <= t) by (unfold t; lia). clearbody t. rewrite Z.min_l by lia. rewrite Z.mod_small by lia. split; [exact T|lia].
  - intros PB. destruct (clipped p _ W) as [L [U|[_ Q]]]; [|rewrite Q; rewrite Z.min_l by lia; apply Z.mod_small; lia].
    replace (Z.max (o_matrix o (product_of n) r gr bl) 0) with 0 by lia. rewrite Z.min_l by lia. apply Z.mod_small. lia.
  - intros PB. destruct (clipped p _ W) as [L _]. rewrite Z.min_r by lia. reflexivity.
Qed.

(** Greys. *)
Theorem greys fuel o g f d : has_kind g (rgb444 d) -> In (f, yuv444 d) kinds -> below g (rgb444 d) -> accurate d o ->
  exists g', convert (S fuel) conversions o g f = Ok g' /\ forall x y, in_comp (yuv444 d) g' CY x y -> sample g CR x y = sample g CG x y -> sample g CG x y = sample g CB x y ->
    sample g CG x y - 1 <= sample g' CY x y <= sample g CG x y /\ 2 ^ (d - 1) - 1 <= sample g' CU x y <= 2 ^ (d - 1) /\ 2 ^ (d - 1) - 1 <= sample g' CV x y <= 2 ^ (d - 1).
Proof.
  intros K F B A. destruct (to_yuv fuel o g f d K F B A) as (g' & E & _ & _ & _ & V). exists g'. split; [exact E|]. intros x y I RG GB.
  assert (IU : in_comp (yuv444 d) g' CU x y) by (unfold in_comp, comp_w, comp_h in *; cbn [k_hs k_vs yuv444]; rewrite !Z.div_1_r; exact I).
  assert (IV : in_comp (yuv444 d) g' CV x y) by (unfold in_comp, comp_w, comp_h in *; cbn [k_hs k_vs yuv444]; rewrite !Z.div_1_r; exact I).
  pose proof (V CY x y ltac:(cbn [In]; tauto) I) as VY. pose proof (V CU x y ltac:(cbn [In]; tauto) IU) as VU. pose proof (V CV x y ltac:(cbn [In]; tauto) IV) as VV.
  unfold truncated, product in VY, VU, VV. cbn [product_of Z.eqb Pos.eqb] in VY, VU, VV. rewrite RG, <- GB in VY, VU, VV. lia.
Qed.

(** There and back. *)
Lemma there_and_back d r g b y u v : In d depths -> 0 <= r < 2 ^ d -> 0 <= g < 2 ^ d -> 0 <= b < 2 ^ d ->
  truncated (product d 0 r g b) y -> truncated (product d 1 r g b) u -> truncated (product d 2 r g b) v ->
  1000000 * r - 2600000 < product d 3 y u v < 1000000 * r + 20000 /\
  1000000 * g - 1020000 < product d 4 y u v < 1000000 * g + 700000 /\
  1000000 * b - 2900000 < product d 5 y u v < 1000000 * b + 20000.
Proof.
  intros D R G B Y U V. assert (L : 2 ^ d <= 65536) by (cbn [depths In] in D; repeat (destruct D as [<-|D]; [lia|]); destruct D).
  unfold truncated, product in *. cbn [Z.eqb Pos.eqb] in *. set (m := 2 ^ (d - 1)) in *. clearbody m. set (n := 2 ^ d) in *. clearbody n. clear D d.
  assert (r < 65536 /\ g < 65536 /\ b < 65536) by lia. clear L.
  repeat split; lia.
Qed.
Lemma one_back d r g b y u v s s' n (P : Prop) : In d depths -> 0 <= r < 2 ^ d -> 0 <= g < 2 ^ d -> 0 <= b < 2 ^ d ->
  truncated (product d 0 r g b) y -> truncated (product d 1 r g b) u -> truncated (product d 2 r g b) v -> In n [CR; CG; CB] -> s = match n with CR => r | CG => g | _ => b end ->
  (0 <= product d (product_of n) y u v < 1000000 * 2 ^ d - 1000 -> truncated (product d (product_of n) y u v) s' /\ 0 <= s' < 2 ^ d) /\ (product d (product_of n) y u v <= 0 -> s' = 0) /\ P ->
  0 <= s' < 2 ^ d /\ s - loss n <= s' <= s.
Proof.
  intros D HR HG HB VY VU VV N -> (Q1 & Q2 & _). pose proof (there_and_back d _ _ _ _ _ _ D HR HG HB VY VU VV) as (TR & TG & TB). cbn [In] in N. unfold truncated in Q1.
  destruct N as [<-|[<-|[<-|[]]]]; cbn [product_of loss] in *;
    match type of Q2 with ?p <= 0 -> _ => set (pp := p) in *; clearbody pp end;
    (destruct (Z_le_gt_dec pp 0) as [L|L]; [specialize (Q2 L); lia|specialize (Q1 ltac:(lia)); lia]).
Qed.
Theorem round_trip fuel fuel' o g f1 f2 d : has_kind g (rgb444 d) -> In (f1, yuv444 d) kinds -> In (f2, rgb444 d) kinds -> In d depths -> below g (rgb444 d) -> accurate d o ->
  exists g1 g2, convert (S fuel) conversions o g f1 = Ok g1 /\ convert (S fuel') conversions o g1 f2 = Ok g2 /\ has_kind g2 (rgb444 d) /\ same_size g g2 /\ below g2 (rgb444 d) /\
    forall n x y, In n [CR; CG; CB] -> in_comp (rgb444 d) g n x y -> sample g n x y - loss n <= sample g2 n x y <= sample g n x y.
Proof.
  intros K F1 F2 D B A. destruct (to_yuv fuel o g f1 d K F1 B A) as (g1 & E1 & K1 & [SW1 SH1] & B1 & V1).
  destruct (to_rgb fuel' o g1 f2 d K1 F2 B1 A) as (g2 & E2 & K2 & [SW2 SH2] & V2). exists g1, g2.
  assert (MV : forall (a b : kind) ga gb n n' x y, a = rgb444 d \/ a = yuv444 d -> b = rgb444 d \/ b = yuv444 d -> g_w ga = g_w gb -> g_h ga = g_h gb -> in_comp a ga n x y -> in_comp b gb n' x y).
  { intros a b ga gb n n' x y [-> | ->] [-> | ->] W H [IX IY]; unfold in_comp, comp_w, comp_h in *; rewrite W, H in *; destruct n, n'; cbn [k_hs k_vs rgb444 yuv444] in *; rewrite ?Z.div_1_r in *; split; assumption. }
  assert (W : forall n x y, In n [CR; CG; CB] -> in_comp (rgb444 d) g2 n x y -> 0 <= sample g2 n x y < 2 ^ d /\ sample g n x y - loss n <= sample g2 n x y <= sample g n x y).
  { intros n x y N I. assert (M : 0 < 2 ^ d) by (cbn [depths In] in D; repeat (destruct D as [<-|D]; [lia|]); destruct D).
    assert (I1 : forall c, in_comp (yuv444 d) g1 c x y) by (intros c; apply (MV (rgb444 d) (yuv444 d) g2 g1 n c x y); auto; congruence).
    assert (I0 : forall c, in_comp (rgb444 d) g c x y) by (intros c; apply (MV (rgb444 d) (rgb444 d) g2 g n c x y); auto; congruence).
    pose proof (B CR x y ltac:(cbn [In k_model rgb444 names]; tauto) (I0 CR)) as HR. pose proof (B CG x y ltac:(cbn [In k_model rgb444 names]; tauto) (I0 CG)) as HG. pose proof (B CB x y ltac:(cbn [In k_model rgb444 names]; tauto) (I0 CB)) as HB. cbn [k_depth rgb444] in HR, HG, HB.
    pose proof (V1 CY x y ltac:(cbn [In]; tauto) (I1 CY)) as VY. pose proof (V1 CU x y ltac:(cbn [In]; tauto) (I1 CU)) as VU. pose proof (V1 CV x y ltac:(cbn [In]; tauto) (I1 CV)) as VV.
    pose proof (V2 n x y N I) as Q. cbv zeta in Q. cbn [product_of] in VY, VU, VV.
    refine (one_back d _ _ _ _ _ _ _ _ n _ D HR HG HB VY VU VV N _ Q). cbn [In] in N. destruct N as [<-|[<-|[<-|[]]]]; reflexivity. }
  split; [exact E1|]. split; [exact E2|]. split; [exact K2|]. split; [split; congruence|]. split.
  - intros n x y N I. exact (proj1 (W n x y N I)).
  - intros n x y N I. apply (W n x y N). apply (MV (rgb444 d) (rgb444 d) g g2 n n x y); auto; congruence.
Qed.
