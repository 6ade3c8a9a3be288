(** Conversions back to where they came from. *)
From Coq Require Import String Lia ZifyBool ZifyNat.
From Verif Require Import Base BaseProofs GsfPrim GsfPrimProofs CogEnums VideoLayout LayoutSpec LayoutProofs PatternSpec JsonProofs PyValue PyValueProofs GrainObj BuildSpec BuildMain BuildKw GrainCopy GrainCopySpec GrainCopyMade GrainGsf
  Compare CompareSpec CompareSym CompareLaws
  NpView NpSpec NpViewProofs NpGrainProofs NpPacked NpConvert NpConvSpec NpConvProofs V210Proofs NpTable NpTheorems NpDepth NpAudio NpAudioSpec Psnr PsnrSpec PsnrProofs PsnrMain PsnrMade NpObject NpObjectSpec NpObjectProofs NpObjectMain NpObjectMore
  RoundSpec RoundProofs RoundMain.
Local Open Scope list_scope.
Ltac Zify.zify_post_hook ::= Z.div_mod_to_equations.

(** Through any formats that are fine enough. *)
Theorem finer_chain u5 now fuel noise src origin sync rate duration layout w h fmts o f k d flow : (4 <= fuel)%nat -> 0 <= w -> 0 <= h -> w mod 2 = 0 -> h mod 2 = 0 ->
  video_of o f w h d -> bytes_ok d -> labelled o src flow origin sync rate duration layout -> In (f, k) pictured -> Forall (fine k) fmts -> (In v210 fmts -> modest (shown f w h d) k) ->
  exists o' d' b, np_converts u5 now fuel noise o fmts = Ok o' /\ video_of o' (last_of f fmts) w h d' /\ labelled o' src (flow_after u5 f flow fmts) origin sync rate duration layout /\
    In (last_of f fmts, b) pictured /\ finer b k /\ carried k (shown f w h d) b (shown (last_of f fmts) w h d') /\
    (b = k -> forall n x y, In n (names (k_model k)) -> in_comp k (shown f w h d) n x y -> pixel (shown (last_of f fmts) w h d') n x y = pixel (shown f w h d) n x y).
Proof.
  intros FU W H EW EH V B LB I FM MO.
  destruct (carry u5 now fuel noise src origin sync rate duration layout w h f k d FU W H EW EH I fmts o f k d flow V B LB I) as (o' & d' & b & R1 & R2 & R3 & R4 & R5 & R6 & R7 & _); try assumption.
  - split; [reflexivity|]. split; [reflexivity|]. split; apply Z.le_refl.
  - exact (carried_self f k _ I).
  - exists o', d', b. split; [exact R1|]. split; [exact R2|]. split; [exact R4|]. split; [exact R5|]. split; [exact R6|]. split; [exact R7|]. intros ->. exact (carried_back f k _ _ I R7).
Qed.

Lemma pictured_unique f a b : In (f, a) pictured -> In (f, b) pictured -> a = b.
Proof.
  intros A B. apply pictured_kind in A as [A|[A ->]]; apply pictured_kind in B as [B|[B ->]]; [exact (kind_unique f a b A B)|destruct (not_v210 _ _ A B)|destruct (not_v210 _ _ B A)|reflexivity].
Qed.

(** Back to the format of the first grain: the payload is that of the first grain. *)
Lemma same_items f k w h d d' : In (f, k) pictured -> 0 < w -> 0 < h -> w mod 2 = 0 -> h mod 2 = 0 -> zlen d = size_for_format f w h -> zlen d' = size_for_format f w h -> bytes_ok d -> bytes_ok d' ->
  no_padding (shown f w h d) -> (f = v210 -> v210_clean (shown f w h d')) ->
  (forall n x y, In n (names (k_model k)) -> in_comp k (shown f w h d) n x y -> pixel (shown f w h d') n x y = pixel (shown f w h d) n x y) -> d = d'.
Proof.
  intros I W H EW EH L L' B B' [CL NP] CL' P. assert (W0 : 0 <= w) by lia. assert (H0 : 0 <= h) by lia.
  pose proof (shown_pictures f k w h d I W0 H0 L B) as PA. pose proof (shown_pictures f k w h d' I W0 H0 L' B') as PA'.
  apply (items_eq f w h d d' (pictured_format f k I) W0 H0 L L' B B'). intros i R.
  destruct (Z.eq_dec f v210) as [E|E].
  - destruct (pictures_v210 _ _ PA E) as [V ->]. destruct (pictures_v210 _ _ PA' E) as [V' _]. apply (v210_equal _ _ V V'); [split; reflexivity|exact (CL E)|exact (CL' E)| |exact R].
    intros n x y N X. specialize (P n x y N X). unfold pixel in P. change (g_fmt (shown f w h d')) with f in P. change (g_fmt (shown f w h d)) with f in P. replace (f =? v210) with true in P by (clear - E; lia). symmetry. exact P.
  - pose proof (pictures_kind _ _ PA E) as HK. destruct (whole _ k HK W H EW EH NP i R) as (n & x & y & v & N & X & CO & AD).
    specialize (P n x y N X). rewrite !(pixel_kind _ k) in P by exact (proj1 HK).
    rewrite (sample_view _ n v x y CO) in P. rewrite (sample_view (shown f w h d') n v x y) in P.
    + rewrite AD in P. symmetry. exact P.
    + rewrite (same_shape_comp (shown f w h d) (shown f w h d') n); [exact CO|]. unfold same_shape, shown. cbn [g_fmt g_w g_h g_item g_len]. rewrite L, L'. auto.
Qed.
Theorem there_and_back u5 now fuel noise src origin sync rate duration layout w h fmts o f k d flow : (4 <= fuel)%nat -> 0 < w -> 0 < h -> w mod 2 = 0 -> h mod 2 = 0 ->
  video_of o f w h d -> bytes_ok d -> labelled o src flow origin sync rate duration layout -> In (f, k) pictured -> Forall (fine k) fmts -> (In v210 fmts -> modest (shown f w h d) k) ->
  last_of f fmts = f -> no_padding (shown f w h d) ->
  exists o', np_converts u5 now fuel noise o fmts = Ok o' /\ video_of o' f w h d /\ labelled o' src (flow_after u5 f flow fmts) origin sync rate duration layout /\
    (labels o = Ok [] -> labels o' = Ok []) /\ (getattr o' $"creation_timestamp" = getattr o $"creation_timestamp" \/ getattr o' $"creation_timestamp" = Ok (PTime now)).
Proof.
  intros FU W H EW EH V B LB I FM MO LA NP.
  destruct (carry u5 now fuel noise src origin sync rate duration layout w h f k d FU (Z.lt_le_incl _ _ W) (Z.lt_le_incl _ _ H) EW EH I fmts o f k d flow V B LB I) as (o' & d' & b & R1 & R2 & R3 & R4 & R5 & R6 & R7 & R8 & R9 & R10); try assumption.
  - split; [reflexivity|]. split; [reflexivity|]. split; apply Z.le_refl.
  - exact (carried_self f k _ I).
  - rewrite LA in *. assert (b = k) as -> by (exact (pictured_unique f b k R5 I)).
    assert (D : d = d').
    { apply (same_items f k w h d d' I W H EW EH (vo_length _ _ _ _ _ V) (vo_length _ _ _ _ _ R2) B R3 NP); [|exact (carried_back f k _ _ I R7)]. exact (R8 (proj1 NP)). }
    subst d'. exists o'. auto 6.
Qed.

(** Comparing it. *)
Lemma units : forallb (fun f => match np_itemsize f with Ok it => it mod video_unit f =? 0 | Err _ => false end) formats = true.
Proof. vm_compute. reflexivity. Qed.
Lemma whole_units f w h (d : bytes) : In f formats -> 0 <= w -> 0 <= h -> zlen d = size_for_format f w h -> zlen d mod video_unit f = 0.
Proof.
  intros I W H L. destruct (shown_shape f w h d I W H L) as (g & _ & _ & _ & _ & X & N). pose proof units as U. rewrite forallb_forall in U. specialize (U f I). rewrite N in U. apply Z.eqb_eq in U.
  assert (P : 0 < video_unit f) by (unfold video_unit; destruct (f =? v210), (f =? v216), (IS_COMPRESSED f || IS_PACKED f), (BYTES_PER_VALUE f =? 1), (BYTES_PER_VALUE f =? 2); reflexivity).
  rewrite L, <- X. rewrite Z.mul_mod, U, Z.mul_0_r by (clear - P; lia). apply Z.mod_0_l. clear - P. lia.
Qed.
Lemma video_length o f w h d : video_of o f w h d -> getattr o $"length" = Ok (PInt (zlen d)).
Proof.
  intros V. pose proof (vo_class _ _ _ _ _ V) as C. pose proof (vo_data _ _ _ _ _ V) as D. destruct o as [c m x y]. cbn [o_class] in C. subst c. unfold get_data in D. cbn [o_class o_data] in D. injection D as ->. reflexivity.
Qed.
Lemma src_same o : o_class o = KVideo -> getattr o $"src_id" = getattr o $"source_id".
Proof. intros C. destruct o as [c m x y]. cbn [o_class] in C. subst c. reflexivity. Qed.
Theorem videos_equal psnr opts a b f w h d src flow flow' origin sync rate duration layout : no_matchers opts -> waived opts (path $"flow_id") -> ~ In (Include $"creation_timestamp") opts ->
  In f formats -> 0 <= w -> 0 <= h -> bytes_ok d -> video_of a f w h d -> video_of b f w h d -> labelled a src flow origin sync rate duration layout -> labelled b src flow' origin sync rate duration layout ->
  labels a = Ok [] -> labels b = Ok [] -> readable a $"creation_timestamp" -> readable b $"creation_timestamp" ->
  exists r, compare_grain psnr opts a b = Ok r /\ r_equal r = true.
Proof.
  intros [NE NPS] WF NI IF W H B VA VB LA LB LBA LBB CA CB.
  assert (ST : forall o, video_of o f w h d -> stored_ok o).
  { intros o V x E. pose proof (vo_data _ _ _ _ _ V) as D. unfold get_data in D. rewrite (vo_class _ _ _ _ _ V) in D. injection D as D. rewrite E in D. injection D as ->. exact B. }
  assert (SA : forall n v, getattr a n = Ok v -> getattr b n = Ok v -> py_eq v v = true -> agree opts a b n) by (intros n v E1 E2 E3; right; exists v, v; auto).
  assert (CC : can_compare psnr opts a b).
  { assert (RD : forall o flow, video_of o f w h d -> labelled o src flow origin sync rate duration layout -> forall n, In n [$"grain_type"; $"src_id"; $"flow_id"; $"rate"; $"duration"; $"length"; $"origin_timestamp"; $"sync_timestamp"; $"cog_frame_format"; $"width"; $"height"; $"cog_frame_layout"] -> readable o n).
    { intros o fl V L n N. cbn [In] in N. unfold readable. destruct L as [L1 L2 L3 L4 [L5 _] [L6 _] L7]. pose proof (src_same o (vo_class _ _ _ _ _ V)) as SR. pose proof (video_length _ _ _ _ _ V) as VL. destruct V as [V1 V2 V3 V4 V5 V6 V7 V8 V9].
      destruct N as [<-|[<-|[<-|[<-|[<-|[<-|[<-|[<-|[<-|[<-|[<-|[<-|[]]]]]]]]]]]]]; eexists; first [eassumption|rewrite SR; eassumption]. }
    assert (RB : forall o, o = a \/ o = b -> forall n, In n [$"grain_type"; $"src_id"; $"flow_id"; $"rate"; $"duration"; $"length"; $"origin_timestamp"; $"sync_timestamp"; $"cog_frame_format"; $"width"; $"height"; $"cog_frame_layout"] -> readable o n).
    { intros o [-> | ->]; [exact (RD a flow VA LA)|exact (RD b flow' VB LB)]. }
    constructor.
    - intros o O n N. apply (RB o O). cbn [In] in *. tauto.
    - intros o O n N. cbn [In] in N. destruct N as [<-|[<-|[<-|[]]]]; [apply (RB o O); cbn [In]; tauto|apply (RB o O); cbn [In]; tauto|]. destruct O as [-> | ->]; assumption.
    - intros o [-> | ->]; eauto.
    - intros t u T _ _. rewrite (vo_type _ _ _ _ _ VA) in T. apply Ok_eq in T. subst t. constructor; try (intros X; apply (f_equal (fun v => match v with PStr s => s | _ => [] end)) in X; vm_compute in X; discriminate X).
      + intros _. split; [intros o O n N; apply (RB o O); cbn [In] in *; tauto|]. intros f' F1 _. rewrite (vo_format _ _ _ _ _ VA) in F1. apply Ok_eq in F1. injection F1 as <-.
        split; [intros _ [m X]; destruct (NPS _ _ X)|]. intros _ o O. exists (Some d). split; [destruct O as [-> | ->]; [exact (vo_data _ _ _ _ _ VA)|exact (vo_data _ _ _ _ _ VB)]|].
        intros x [= <-]. exact (whole_units f w h d IF W H (vo_length _ _ _ _ _ VA)).
      + intros X. destruct X. apply (in_map PStr). unfold known_types. cbn [In]. tauto.
    - intros la lb i x y k L1 _ N1. rewrite LBA in L1. apply Ok_eq in L1. subst la. destruct i; discriminate N1.
    - intros T. unfold has_type in T. rewrite (vo_type _ _ _ _ _ VA) in T. apply Ok_eq in T. apply (f_equal (fun v => match v with PStr s => s | _ => [] end)) in T. vm_compute in T. discriminate T. }
  destruct (proj2 (grain_total psnr opts a b) CC) as [r R]. exists r. split; [exact R|]. apply (grain_agree psnr opts a b r (ST a VA) (ST b VB) R). clear CC R.
  destruct LA as [L1 L2 L3 L4 [L5 _] [L6 _] L7], LB as [M1 M2 M3 M4 [M5 _] [M6 _] M7].
  pose proof (src_same a (vo_class _ _ _ _ _ VA)) as SRA. pose proof (src_same b (vo_class _ _ _ _ _ VB)) as SRB. pose proof (video_length _ _ _ _ _ VA) as VLA. pose proof (video_length _ _ _ _ _ VB) as VLB.
  assert (RF : forall v, match v with PStr _ | PUuid _ | PFrac _ _ | PInt _ => True | _ => False end -> py_eq v v = true).
  { intros v K. destruct v; try destruct K; cbn [py_eq as_q]; rewrite ?Z.eqb_refl, ?zlist_eqb_refl; reflexivity. }
  constructor.
  - intros n N. cbn [In] in N. destruct N as [<-|[<-|[<-|[<-|[<-|[]]]]]].
    + apply (SA _ _ (vo_type _ _ _ _ _ VA) (vo_type _ _ _ _ _ VB)). apply RF. exact Logic.I.
    + rewrite L1 in SRA. rewrite M1 in SRB. apply (SA _ _ SRA SRB). apply RF. exact Logic.I.
    + left. exact WF.
    + apply (SA _ _ L5 M5). apply RF. exact Logic.I.
    + apply (SA _ _ L6 M6). apply RF. exact Logic.I.
  - left. apply (SA _ _ VLA VLB). apply RF. exact Logic.I.
  - assert (X : forall n t, getattr a n = Ok (PTime t) -> getattr b n = Ok (PTime t) -> times_agree opts a b n).
    { intros n t E1 E2. right. exists t, t. split; [exact E1|]. split; [exact E2|]. split; [intros m Q; destruct (NE _ _ Q)|]. intros _. apply Z.sub_diag. }
    intros n N. cbn [In] in N. destruct N as [<-|[<-|[]]]; [exact (X _ _ L3 M3)|exact (X _ _ L4 M4)].
  - intros Q. destruct (NI Q).
  - right. exists [], []. split; [exact LBA|]. split; [exact LBB|]. split; [right; reflexivity|]. intros i [Q|Q]; cbn [List.length] in Q; clear - Q; lia.
  - intros t u T _ _. rewrite (vo_type _ _ _ _ _ VA) in T. apply Ok_eq in T. subst t. constructor; try (intros X; apply (f_equal (fun v => match v with PStr s => s | _ => [] end)) in X; vm_compute in X; discriminate X).
    + intros _. split.
      * intros n N. cbn [In] in N. destruct N as [<-|[<-|[<-|[<-|[]]]]].
        -- apply (SA _ _ (vo_format _ _ _ _ _ VA) (vo_format _ _ _ _ _ VB)). apply RF. exact Logic.I.
        -- apply (SA _ _ (vo_width _ _ _ _ _ VA) (vo_width _ _ _ _ _ VB)). apply RF. exact Logic.I.
        -- apply (SA _ _ (vo_height _ _ _ _ _ VA) (vo_height _ _ _ _ _ VB)). apply RF. exact Logic.I.
        -- apply (SA _ _ L7 M7). apply RF. exact Logic.I.
      * intros f' _ _. right. right. split; [intros _ m Q; exact (NPS _ _ Q)|]. right. exists d, d. split; [exact (vo_data _ _ _ _ _ VA)|]. split; [exact (vo_data _ _ _ _ _ VB)|]. reflexivity.
    + intros X. destruct X. apply (in_map PStr). unfold known_types. cbn [In]. tauto.
Qed.
Theorem compared_back psnr opts u5 now fuel noise src origin sync rate duration layout w h fmts o f k d flow : (4 <= fuel)%nat -> 0 < w -> 0 < h -> w mod 2 = 0 -> h mod 2 = 0 ->
  video_of o f w h d -> bytes_ok d -> labelled o src flow origin sync rate duration layout -> In (f, k) pictured -> Forall (fine k) fmts -> (In v210 fmts -> modest (shown f w h d) k) ->
  last_of f fmts = f -> no_padding (shown f w h d) -> labels o = Ok [] -> readable o $"creation_timestamp" -> no_matchers opts -> waived opts (path $"flow_id") -> ~ In (Include $"creation_timestamp") opts ->
  exists o' r, np_converts u5 now fuel noise o fmts = Ok o' /\ compare_grain psnr opts o o' = Ok r /\ r_equal r = true.
Proof.
  intros FU W H EW EH V B LB I FM MO LA NP LO RO NM WF NI.
  destruct (there_and_back u5 now fuel noise src origin sync rate duration layout w h fmts o f k d flow FU W H EW EH V B LB I FM MO LA NP) as (o' & E & V' & LB' & LO' & CO).
  assert (RO' : readable o' $"creation_timestamp") by (destruct CO as [CO|CO]; [unfold readable; rewrite CO; exact RO|eexists; exact CO]).
  destruct (videos_equal psnr opts o o' f w h d src flow (flow_after u5 f flow fmts) origin sync rate duration layout NM WF NI (pictured_format f k I) (Z.lt_le_incl _ _ W) (Z.lt_le_incl _ _ H) B V V' LB LB' LO (LO' LO) RO RO') as (r & R & Q).
  exists o', r. auto.
Qed.
