(** Converting video grains: payloads, and what is refused. *)
From Coq Require Import String Lia ZifyBool ZifyNat.
From Verif Require Import Base BaseProofs GsfPrim GsfPrimProofs CogEnums VideoLayout LayoutSpec LayoutProofs PatternSpec JsonProofs PyValue GrainObj BuildSpec BuildMain BuildKw GrainCopy GrainCopySpec GrainCopyMade GrainGsf
  NpView NpSpec NpViewProofs NpGrainProofs NpConvert NpConvSpec NpConvProofs V210Proofs NpTable NpTheorems NpDepth NpAudio NpAudioSpec Psnr PsnrSpec PsnrProofs PsnrMain PsnrMade NpObject NpObjectSpec NpObjectProofs NpObjectMain.
Local Open Scope list_scope.
Ltac Zify.zify_post_hook ::= Z.div_mod_to_equations.

(** A payload is known by its items. *)
Lemma chunks_eq item : 0 < item -> forall n d d', bytes_ok d -> bytes_ok d' -> zlen d = Z.of_nat n * item -> zlen d' = Z.of_nat n * item ->
  (forall i, 0 <= i < Z.of_nat n -> little_endian (sample_bytes item d i) = little_endian (sample_bytes item d' i)) -> d = d'.
Proof.
  intros P. induction n as [|n IH]; intros d d' B B' L L' E.
  - apply zlen_0_nil in L. apply zlen_0_nil in L'. congruence.
  - rewrite <- (zfirst_zskip item d), <- (zfirst_zskip item d'). f_equal.
    + specialize (E 0 ltac:(lia)). unfold sample_bytes in E. change little_endian with le_dec in E. rewrite !Z.mul_0_l in E. rewrite !zskip_le0 in E by lia.
      rewrite <- (enc_le_dec (zfirst item d)) by (apply bytes_ok_zfirst; exact B). rewrite <- (enc_le_dec (zfirst item d')) by (apply bytes_ok_zfirst; exact B'). rewrite E. f_equal.
      assert (X : zlen (zfirst item d) = item) by (rewrite zlen_zfirst by lia; nia). assert (X' : zlen (zfirst item d') = item) by (rewrite zlen_zfirst by lia; nia). unfold zlen in X, X'. lia.
    + apply IH; try (apply bytes_ok_zskip; assumption); try (rewrite zlen_zskip by lia; nia).
      intros i I. specialize (E (i + 1) ltac:(lia)). unfold sample_bytes in *. rewrite !zskip_zskip by nia. replace (item + i * item) with ((i + 1) * item) by ring. exact E.
Qed.
Lemma items_eq f w h d d' : In f formats -> 0 <= w -> 0 <= h -> zlen d = size_for_format f w h -> zlen d' = size_for_format f w h -> bytes_ok d -> bytes_ok d' ->
  (forall i, 0 <= i < g_len (shown f w h d) -> g_data (shown f w h d) i = g_data (shown f w h d') i) -> d = d'.
Proof.
  intros I W H L L' B B' E. destruct (shown_shape f w h d I W H L) as (g & _ & GI & GL & P & X & N).
  assert (NN : 0 <= g_len g) by (pose proof (size_nonneg f w h W H); nia).
  apply (chunks_eq (g_item g) P (Z.to_nat (g_len g))); try assumption; try (rewrite Z2Nat.id by exact NN; congruence).
  intros i R. rewrite Z2Nat.id in R by exact NN. rewrite <- GL in R. specialize (E i R). unfold shown in E. rewrite N in E. exact E.
Qed.

(** Unpacking and packing. *)
Theorem unpacked u5 now fuel noise o w h d src flow origin sync rate duration layout :
  video_of o v210 w h d -> bytes_ok d -> labelled o src flow origin sync rate duration layout -> v210_clean (shown v210 w h d) -> (4 <= fuel)%nat -> 0 <= w -> 0 <= h -> w mod 2 = 0 -> h mod 2 = 0 ->
  exists o', np_converts u5 now fuel noise o [S16_422_10BIT; v210] = Ok o' /\ video_of o' v210 w h d /\ labelled o' src (u5 (u5 flow S16_422_10BIT) v210) origin sync rate duration layout.
Proof.
  intros V B LB CL FU W H EW EH.
  assert (I0 : In v210 formats) by (unfold formats; apply in_or_app; right; left; reflexivity). assert (K1 : In (S16_422_10BIT, yuv422 10) kinds) by (cbn [In kinds]; tauto).
  assert (I1 : In S16_422_10BIT formats) by (unfold formats; apply in_or_app; left; exact (in_map fst _ _ K1)).
  destruct (converted u5 now fuel noise o v210 S16_422_10BIT w h d src flow origin sync rate duration layout V B LB FU I0 I1 ltac:(intros K; vm_compute in K; discriminate K) W H EW EH)
    as (o1 & d1 & g1 & C1 & V1 & B1 & L1 & _ & _ & E1 & O1 & S1 & D1).
  destruct (converted u5 now fuel noise o1 S16_422_10BIT v210 w h d1 src (u5 flow S16_422_10BIT) origin sync rate duration layout V1 B1 L1 FU I1 I0 ltac:(intros K; vm_compute in K; discriminate K) W H EW EH)
    as (o2 & d2 & g2 & C2 & V2 & B2 & L2 & _ & _ & E2 & O2 & S2 & D2).
  exists o2. split; [cbn [np_converts]; rewrite C1; cbn [rbind]; rewrite C2; reflexivity|].
  destruct (shown_ok v210 w h d I0 W H (vo_length _ _ _ _ _ V) B) as [NO _]. destruct (shown_ok S16_422_10BIT w h d1 I1 W H (vo_length _ _ _ _ _ V1) B1) as [NO1 _].
  assert (VO : v210_ok (shown v210 w h d)) by (split; [reflexivity|exact NO]). assert (HK : has_kind (shown S16_422_10BIT w h d1) (yuv422 10)) by (split; [exact K1|exact NO1]).
  destruct fuel as [|fuel]; [lia|].
  destruct (unpack fuel noise _ VO) as (g1' & E1' & G1 & [SW SH] & P1). rewrite E1 in E1'. apply Ok_eq in E1'. subst g1'. cbn [shown g_w g_h] in SW, SH.
  assert (IC : forall n x y, in_comp (yuv422 10) (shown S16_422_10BIT w h d1) n x y -> in_comp (yuv422 10) g1 n x y) by (intros n x y Q; unfold in_comp in *; rewrite <- SW, <- SH; exact Q).
  assert (P : forall n x y, In n [CY; CU; CV] -> in_comp (yuv422 10) (shown S16_422_10BIT w h d1) n x y -> sample (shown S16_422_10BIT w h d1) n x y = v210_sample (shown v210 w h d) n x y).
  { intros n x y N Q. rewrite (shown_alike (yuv422 10) g1 _ G1 S1 D1 n x y N (IC n x y Q)). exact (P1 n x y N (IC n x y Q)). }
  assert (BL : below (shown S16_422_10BIT w h d1) (yuv422 10)).
  { intros n x y N Q. rewrite (P n x y N Q). unfold v210_sample. destruct (v210_place n x) as [word field]. apply Z.mod_pos_bound. reflexivity. }
  destruct (pack fuel noise _ HK BL) as (g2' & E2' & G2 & CL2 & [SW2 SH2] & P2). rewrite E2 in E2'. apply Ok_eq in E2'. subst g2'. cbn [shown g_w g_h] in SW2, SH2.
  assert (DD : d = d2).
  { apply (items_eq v210 w h d d2 I0 W H (vo_length _ _ _ _ _ V) (vo_length _ _ _ _ _ V2) B B2). intros i R.
    assert (R' : 0 <= i < g_len g2).
    { destruct (v210_shape _ VO) as (_ & _ & _ & Q & _). destruct (v210_shape _ G2) as (_ & _ & _ & Q' & _). rewrite Q' , <- SW2, <- SH2. rewrite Q in R. exact R. }
    rewrite (D2 i R'). apply (v210_equal (shown v210 w h d) g2 VO G2); try assumption; [split; assumption|].
    intros n x y N Q. assert (Q' : in_comp (yuv422 10) (shown S16_422_10BIT w h d1) n x y) by exact Q. rewrite (P2 n x y N Q'). symmetry. exact (P n x y N Q'). }
  rewrite DD. split; [exact V2|exact L2].
Qed.

(** Formats without conversions. *)
Theorem refused u5 now fuel noise o f f' : getattr o $"cog_frame_format" = Ok (PInt f) -> f' <> f -> ~ In f formats \/ ~ In f' formats -> forall o', np_convert u5 now fuel noise o f' <> Ok o'.
Proof.
  intros F NE NI o' C. unfold np_convert, attr in C. rewrite F in C. cbn [rbind to_int] in C. replace (f =? f') with false in C by lia.
  apply rbind_ok in C as (n & _ & C). apply rbind_ok in C as (g & G & C). apply rbind_ok in C as (g' & CV & _).
  assert (GF : g_fmt g = f).
  { unfold np_seen in G. apply rbind_ok in G as (d & _ & G). destruct d as [d|]; [|discriminate G]. apply rbind_ok in G as (v & A & G). apply rbind_ok in G as (w & _ & G). apply rbind_ok in G as (h & _ & G). apply Ok_eq in G. subst g. cbn [g_fmt].
    unfold np_arrays in A. apply rbind_ok in A as (x & _ & A). unfold attr in A. rewrite F in A. cbn [rbind to_int] in A. apply rbind_ok in A as (it & _ & A).
    destruct (negb _); [discriminate A|]. apply rbind_ok in A as (cs & _ & A). destruct (negb _); [discriminate A|]. apply rbind_ok in A as (vs & _ & A).
    destruct (arrangement_of f); try (destruct (zlen vs <? 3); [discriminate A|]); apply Ok_eq in A; subst v; reflexivity. }
  unfold convert in CV. rewrite GF in CV. replace (f =? f') with false in CV by lia. apply rbind_ok in CV as (g0 & _ & CV). rewrite (lookup_none f f' NI) in CV. discriminate CV.
Qed.

(** The payload of a grain is what was assigned to it; the metadata stays. *)
Theorem assigned o f w h d b : video_of o f w h d -> In f formats -> 0 <= w -> 0 <= h -> zlen b = size_for_format f w h ->
  np_set_data (ABytes b) o = (mkO KVideo (o_meta o) (Some b) None, Ok tt) /\ video_of (mkO KVideo (o_meta o) (Some b) None) f w h b /\
  np_bytes_of (mkO KVideo (o_meta o) (Some b) None) = b /\ np_length (mkO KVideo (o_meta o) (Some b) None) = size_for_format f w h.
Proof.
  intros V I W H L. pose proof V as [C F T FM WD HT CO D LN]. destruct o as [c m x y]. cbn [o_class o_meta] in *. subst c.
  assert (V' : video_of (mkO KVideo m (Some b) None) f w h b).
  { constructor; try assumption; try reflexivity. all: rewrite other_payload with (d' := x) (x' := y); [assumption|cbn [In]; tauto]. }
  split; [|split; [exact V'|]; split; [reflexivity|exact L]].
  destruct (np_arrays_ok (mkO KVideo m (Some b) None) f w h b eq_refl (vo_format _ _ _ _ _ V') CO eq_refl L I W H) as (item & l & N & P & M & A).
  unfold np_set_data. cbn [o_class o_meta o_data]. unfold attr. rewrite other_payload with (d' := x) (x' := y) by (cbn [In]; tauto). rewrite FM. cbn [rbind to_int]. rewrite N. rewrite M. cbn [Z.eqb negb]. rewrite A. reflexivity.
Qed.
(** As compute_psnr makes them. *)
Theorem as_compared now o : numpy_video now o = rbind (np_of now o) np_arrays.
Proof.
  unfold numpy_video, np_of. destruct (o_class o); try reflexivity. destruct (get_data o) as [d|e]; cbn [rbind]; [|reflexivity]. destruct (init KVideo now (o_meta o) (arg_of_data d)) as [n|e]; cbn [rbind]; [|reflexivity].
  unfold with_arrays. change (np_arrays n = rbind (rbind (np_arrays n) (fun _ => Ok n)) np_arrays). destruct (np_arrays n) as [v|e] eqn:A; cbn [rbind]; [symmetry; exact A|reflexivity].
Qed.
Theorem as_format_or u5 now fuel noise o f w h d : video_of o f w h d ->
  np_asformat u5 now fuel noise o f = Ok (true, o) /\
  (forall f' o', f' <> f -> np_convert u5 now fuel noise o f' = Ok o' -> np_asformat u5 now fuel noise o f' = Ok (false, o')) /\
  numpy_video now o = rbind (np_of now o) np_arrays.
Proof.
  intros V. unfold np_asformat, attr. rewrite (vo_format _ _ _ _ _ V). cbn [rbind to_int]. rewrite Z.eqb_refl. split; [reflexivity|]. split; [|exact (as_compared now o)].
  intros f' o' NE C. replace (f =? f') with false by lia. rewrite C. reflexivity.
Qed.
Theorem same_format now o f w h d : video_of o f w h d -> In f formats -> 0 <= w -> 0 <= h ->
  np_of now o = Ok (mkO KVideo (o_meta o) (Some d) None) /\ forall u5 fuel noise, np_convert u5 now fuel noise o f = Ok (mkO KVideo (o_meta o) (Some d) None).
Proof.
  intros V I W H. pose proof (again now o f w h d V I W H) as A. split; [exact A|]. intros u5 fuel noise. unfold np_convert. unfold attr at 1. rewrite (vo_format _ _ _ _ _ V). cbn [rbind to_int]. rewrite Z.eqb_refl. exact A.
Qed.

(** Grains that were constructed. *)
Theorem np_made now src flow origin sync creation rate duration f w h layout d : In f formats -> member frame_layouts layout = true -> 0 <= w -> 0 <= h -> zlen d = size_for_format f w h ->
  0 < snd rate -> Z.gcd (fst rate) (snd rate) = 1 -> 0 < snd duration -> Z.gcd (fst duration) (snd duration) = 1 ->
  exists o, np_kw now (mkKw (Some src) (Some flow) (Some origin) (Some sync) creation rate duration) f w h layout (ABytes d) = Ok o /\ video_of o f w h d /\ labelled o src flow origin sync rate duration layout.
Proof.
  intros I ML W H L R1 R2 D1 D2. destruct rate as [rn rd], duration as [dn dd]. cbn [fst snd] in *. set (k := mkKw (Some src) (Some flow) (Some origin) (Some sync) creation (rn, rd) (dn, dd)).
  destruct (proj2 (video_kw_total now k f w h layout (ABytes d)) ltac:(intros K; discriminate K)) as [o E].
  pose proof (video_kw now k f w h layout (ABytes d) o E) as ([CT CS CF CC CO CY CR CD] & (GD & _) & AW & AH & AF & AL & AC). specialize (AF (format_member f I)). specialize (AL ML).
  assert (KC : o_class o = KVideo).
  { clear - E. unfold kw_video in E. change (PDict [($"format", PInt f); ($"width", PInt w); ($"height", PInt h); ($"layout", PInt layout); ($"extension", PInt 0); ($"components", PList [])])
      with (video_part_kw f w h layout (PList [])) in E. rewrite video_init_kw in E. apply rbind_ok in E as (a' & _ & E). apply Ok_eq in E.
    destruct (kw_shape KVideo now k (video_part_kw f w h layout (PList (map comp_dict (components_for_format f w h)))) a') as (x & y & Q). cbn [type_name part_name] in Q. rewrite Q in E. subst o. reflexivity. }
  destruct (np_arrays_ok o f w h d KC AF AC GD L I W H) as (item & l & _ & _ & _ & A).
  exists o. split; [unfold np_kw; rewrite E; cbn [rbind]; unfold with_arrays; rewrite A; reflexivity|]. destruct (CS src eq_refl) as [CS1 _]. specialize (CF flow eq_refl). specialize (CR rn rd eq_refl R1 R2). specialize (CD dn dd eq_refl D1 D2).
  split.
  - constructor; try assumption. exact (kw_video_faithful now k f w h layout (ABytes d) o E).
  - constructor; cbn [fst snd]; try assumption; split; try assumption; split; assumption.
Qed.

(** ** Payloads that are awaited. *)
Theorem waiting now src flow origin sync creation rate duration f w h layout : In f formats -> member frame_layouts layout = true -> 0 <= w -> 0 <= h ->
  0 < snd rate -> Z.gcd (fst rate) (snd rate) = 1 -> 0 < snd duration -> Z.gcd (fst duration) (snd duration) = 1 ->
  exists m, let o := mkO KVideo m None (Some 0) in
    np_kw now (mkKw (Some src) (Some flow) (Some origin) (Some sync) creation rate duration) f w h layout AWait = Ok o /\
    labelled o src flow origin sync rate duration layout /\ np_bytes_of o = [] /\ np_length o = 0 /\ np_await None o = (mkO KVideo m None None, Err EType) /\
    forall d, zlen d = size_for_format f w h ->
      np_await (Some d) o = (mkO KVideo m (Some d) None, Ok tt) /\ video_of (mkO KVideo m (Some d) None) f w h d /\ labelled (mkO KVideo m (Some d) None) src flow origin sync rate duration layout /\
      np_await None (mkO KVideo m (Some d) None) = (mkO KVideo m (Some d) None, Ok tt).
Proof.
  intros I ML W H R1 R2 D1 D2. destruct rate as [rn rd], duration as [dn dd]. cbn [fst snd] in *. set (k := mkKw (Some src) (Some flow) (Some origin) (Some sync) creation (rn, rd) (dn, dd)).
  destruct (proj2 (video_kw_total now k f w h layout AWait) ltac:(intros K; discriminate K)) as [o E].
  pose proof (video_kw now k f w h layout AWait o E) as ([CT CS CF CC CO CY CR CD] & _ & AW & AH & AF & AL & AC). specialize (AF (format_member f I)). specialize (AL ML).
  pose proof (kw_video_faithful now k f w h layout AWait o E) as FA.
  assert (KC : exists m, o = mkO KVideo m None (Some 0)).
  { clear - E. unfold kw_video in E. change (PDict [($"format", PInt f); ($"width", PInt w); ($"height", PInt h); ($"layout", PInt layout); ($"extension", PInt 0); ($"components", PList [])])
      with (video_part_kw f w h layout (PList [])) in E. rewrite video_init_kw in E. apply rbind_ok in E as (a' & A & E). cbn [or_zeros] in A. apply Ok_eq in A. subst a'. apply Ok_eq in E.
    unfold grain_obj in E. subst o. eexists. reflexivity. }
  destruct KC as [m ->]. exists m. cbv zeta. destruct (CS src eq_refl) as [CS1 _]. specialize (CF flow eq_refl). specialize (CR rn rd eq_refl R1 R2). specialize (CD dn dd eq_refl D1 D2).
  assert (LB : labelled (mkO KVideo m None (Some 0)) src flow origin sync (rn, rd) (dn, dd) layout) by (constructor; cbn [fst snd]; try assumption; split; try assumption; split; assumption).
  split; [unfold np_kw; rewrite E; reflexivity|]. split; [exact LB|]. split; [reflexivity|]. split; [reflexivity|]. split; [reflexivity|]. intros d L.
  assert (V : video_of (mkO KVideo m (Some d) None) f w h d).
  { constructor; try assumption; try reflexivity. all: rewrite other_payload with (d' := None) (x' := Some 0); [assumption|cbn [In]; tauto]. }
  destruct (assigned (mkO KVideo m (Some d) None) f w h d d V I W H L) as (S & _). cbn [o_meta] in S.
  split; [|split; [exact V|split; [exact (same_labels (mkO KVideo m None (Some 0)) d src flow origin sync (rn, rd) (dn, dd) layout eq_refl LB)|reflexivity]]].
  unfold np_await. cbn [o_data o_wait arg_of_data]. unfold np_set_data in *. cbn [o_class o_meta o_data] in *. unfold attr in *.
  rewrite other_payload with (d' := Some d) (x' := None) by (cbn [In]; tauto). destruct (rbind (getattr (mkO KVideo m (Some d) None) $"cog_frame_format") to_int) as [z|e] eqn:Z; cbn [rbind] in *; [|discriminate S].
  destruct (np_itemsize z) as [item|e]; [|discriminate S]. destruct (negb (zlen d mod item =? 0)); [discriminate S|]. exact S.
Qed.

(** What is assigned but is no payload: None is refused, and an awaitable takes the place of the payload. *)
Theorem not_assigned o f w h d : video_of o f w h d -> o_wait o = None ->
  np_set_data ANone o = (o, Err EType) /\
  let o' := fst (np_set_data AWait o) in snd (np_set_data AWait o) = Ok tt /\ get_data o' = Ok None /\ np_bytes_of o' = [] /\ np_length o' = 0 /\ o_meta o' = o_meta o /\
  forall u5 now fuel noise f', f' <> f -> exists e, np_convert u5 now fuel noise o' f' = Err e.
Proof.
  intros V N. pose proof V as [C F T FM WD HT CO D LN]. destruct o as [c m x y]. cbn [o_class o_meta o_wait] in *. subst c y. split; [reflexivity|]. cbv zeta. unfold np_set_data. cbn [o_class o_meta o_data o_wait fst snd].
  repeat (split; [reflexivity|]). intros u5 now fuel noise f' NE. unfold np_convert. unfold attr at 1. rewrite other_payload with (d' := x) (x' := None) by (cbn [In]; tauto). rewrite FM. cbn [rbind to_int]. replace (f =? f') with false by lia.
  match goal with |- context [rbind (np_similar ?a ?b ?c ?d) _] => destruct (np_similar a b c d) as [n|e] end; cbn [rbind]; [|eexists; reflexivity]. eexists. reflexivity.
Qed.
