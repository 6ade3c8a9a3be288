(** The colour space conversions of grains. *)
From Coq Require Import String Lia ZifyBool ZifyNat.
From Verif Require Import Base BaseProofs CogEnums VideoLayout LayoutProofs JsonProofs PyValue GrainObj GrainGsf
  NpView NpSpec NpViewProofs NpGrainProofs NpConvert NpConvSpec NpConvProofs V210Proofs NpTable NpTheorems NpDepth NpAudio NpAudioSpec Psnr PsnrSpec PsnrProofs PsnrMain PsnrMade
  NpObject NpObjectSpec NpObjectProofs NpObjectMain NpObjectMore ColourSpec ColourProofs.
Local Open Scope list_scope.

Lemma of_kind f k : In (f, k) kinds -> In f formats.
Proof. intros I. unfold formats. apply in_or_app. left. exact (in_map fst _ _ I). Qed.
Lemma full d n w h g : 0 <= w -> 0 <= h -> g_w g = w -> g_h g = h -> forall k x y, k = rgb444 d \/ k = yuv444 d -> in_comp k g n x y <-> 0 <= x < w /\ 0 <= y < h.
Proof. intros W H <- <- k x y [-> | ->]; unfold in_comp, comp_w, comp_h; destruct n; cbn [k_hs k_vs rgb444 yuv444]; rewrite ?Z.div_1_r; reflexivity. Qed.

Theorem returned u5 now fuel noise o f1 f2 f d w h b src flow origin sync rate duration layout :
  video_of o f w h b -> bytes_ok b -> labelled o src flow origin sync rate duration layout -> In (f, rgb444 d) kinds -> In (f1, yuv444 d) kinds -> In (f2, rgb444 d) kinds -> In d depths -> accurate d noise ->
  (forall n x y, In n [CR; CG; CB] -> 0 <= x < w -> 0 <= y < h -> 0 <= sample (shown f w h b) n x y < 2 ^ d) ->
  (4 <= fuel)%nat -> 0 <= w -> 0 <= h -> w mod 2 = 0 -> h mod 2 = 0 ->
  exists o' b', np_converts u5 now fuel noise o [f1; f2] = Ok o' /\ video_of o' f2 w h b' /\ labelled o' src (u5 (u5 flow f1) f2) origin sync rate duration layout /\
    forall n x y, In n [CR; CG; CB] -> 0 <= x < w -> 0 <= y < h -> sample (shown f w h b) n x y - loss n <= sample (shown f2 w h b') n x y <= sample (shown f w h b) n x y.
Proof.
  intros V B LB K F1 F2 D A RG FU W H EW EH.
  pose proof (of_kind _ _ K) as I0. pose proof (of_kind _ _ F1) as I1. pose proof (of_kind _ _ F2) as I2.
  assert (N1 : f1 <> f) by (intros ->; pose proof (kind_unique f _ _ K F1) as Q; discriminate Q). assert (N2 : f2 <> f1) by (intros ->; pose proof (kind_unique f1 _ _ F2 F1) as Q; discriminate Q).
  destruct (converted u5 now fuel noise o f f1 w h b src flow origin sync rate duration layout V B LB FU I0 I1 N1 W H EW EH) as (o1 & b1 & g1 & C1 & V1 & B1 & L1 & _ & _ & E1 & O1 & S1 & D1).
  destruct (converted u5 now fuel noise o1 f1 f2 w h b1 src (u5 flow f1) origin sync rate duration layout V1 B1 L1 FU I1 I2 N2 W H EW EH) as (o2 & b2 & g2 & C2 & V2 & B2 & L2 & _ & _ & E2 & O2 & S2 & D2).
  exists o2, b2. split; [cbn [np_converts]; rewrite C1; cbn [rbind]; rewrite C2; reflexivity|]. split; [exact V2|]. split; [exact L2|].
  destruct (shown_ok f w h b I0 W H (vo_length _ _ _ _ _ V) B) as [NO _]. destruct (shown_ok f1 w h b1 I1 W H (vo_length _ _ _ _ _ V1) B1) as [NO1 _].
  assert (HK : has_kind (shown f w h b) (rgb444 d)) by (split; [exact K|exact NO]). assert (HK1 : has_kind (shown f1 w h b1) (yuv444 d)) by (split; [exact F1|exact NO1]).
  assert (BL : below (shown f w h b) (rgb444 d)).
  { intros n x y N I. apply (full d n w h (shown f w h b) W H eq_refl eq_refl (rgb444 d) x y (or_introl eq_refl)) in I as [X Y]. exact (RG n x y N X Y). }
  destruct fuel as [|fuel]; [lia|].
  destruct (to_yuv fuel noise _ f1 d HK F1 BL A) as (g1' & E1' & K1 & [SW1 SH1] & BL1 & Q1). rewrite E1 in E1'. apply Ok_eq in E1'. subst g1'. cbn [shown g_w g_h] in SW1, SH1.
  assert (P1 : forall n x y, In n [CY; CU; CV] -> 0 <= x < w -> 0 <= y < h -> in_comp (yuv444 d) g1 n x y /\ sample (shown f1 w h b1) n x y = sample g1 n x y).
  { intros n x y N X Y. assert (I : in_comp (yuv444 d) g1 n x y) by (apply (full d n w h g1 W H (eq_sym SW1) (eq_sym SH1)); [right; reflexivity|split; assumption]).
    split; [exact I|]. exact (shown_alike (yuv444 d) g1 _ K1 S1 D1 n x y N I). }
  assert (BL1' : below (shown f1 w h b1) (yuv444 d)).
  { intros n x y N I. apply (full d n w h (shown f1 w h b1) W H eq_refl eq_refl (yuv444 d) x y (or_intror eq_refl)) in I as [X Y]. destruct (P1 n x y N X Y) as [I E]. rewrite E. exact (BL1 n x y N I). }
  destruct (to_rgb fuel noise _ f2 d HK1 F2 BL1' A) as (g2' & E2' & K2 & [SW2 SH2] & Q2). rewrite E2 in E2'. apply Ok_eq in E2'. subst g2'. cbn [shown g_w g_h] in SW2, SH2.
  intros n x y N X Y. assert (I : in_comp (rgb444 d) g2 n x y) by (apply (full d n w h g2 W H (eq_sym SW2) (eq_sym SH2)); [left; reflexivity|split; assumption]).
  rewrite (shown_alike (rgb444 d) g2 _ K2 S2 D2 n x y N I). pose proof (Q2 n x y N I) as Q. cbv zeta in Q.
  destruct (P1 CY x y ltac:(cbn [In]; tauto) X Y) as [IY EY]. destruct (P1 CU x y ltac:(cbn [In]; tauto) X Y) as [IU EU]. destruct (P1 CV x y ltac:(cbn [In]; tauto) X Y) as [IV EV]. rewrite EY, EU, EV in Q.
  exact (proj2 (one_back d _ _ _ _ _ _ _ _ n _ D (RG CR x y ltac:(cbn [In]; tauto) X Y) (RG CG x y ltac:(cbn [In]; tauto) X Y) (RG CB x y ltac:(cbn [In]; tauto) X Y)
    (Q1 CY x y ltac:(cbn [In]; tauto) IY) (Q1 CU x y ltac:(cbn [In]; tauto) IU) (Q1 CV x y ltac:(cbn [In]; tauto) IV) N (ltac:(cbn [In] in N; destruct N as [<-|[<-|[<-|[]]]]; reflexivity)) Q)).
Qed.
