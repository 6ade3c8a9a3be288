(** Converting video grains. *)
From Coq Require Import String Lia ZifyBool ZifyNat.
From Verif Require Import Base BaseProofs GsfPrim GsfPrimProofs CogEnums VideoLayout LayoutSpec LayoutProofs PatternSpec JsonProofs PyValue GrainObj BuildSpec BuildMain BuildKw GrainCopy GrainCopySpec GrainCopyMade GrainGsf
  NpView NpSpec NpViewProofs NpGrainProofs NpConvert NpConvSpec NpConvProofs V210Proofs NpTable NpTheorems NpDepth NpAudio NpAudioSpec Psnr PsnrSpec PsnrProofs PsnrMain PsnrMade NpObject NpObjectSpec NpObjectProofs.
Local Open Scope list_scope.
Ltac Zify.zify_post_hook ::= Z.div_mod_to_equations.

Lemma layout_member o z : o_class o = KVideo -> getattr o $"cog_frame_layout" = Ok (PInt z) -> member frame_layouts z = true.
Proof.
  intros C H. destruct o as [c m d x]. cbn [o_class] in C. subst c. change (rbind (in_section $"cog_frame" $"layout" (mkO KVideo m d x)) (to_member frame_layouts) = Ok (PInt z)) in H.
  apply rbind_ok in H as (v & _ & H). unfold to_member in H. destruct (as_q v) as [[y q]|]; [|discriminate H]. destruct q as [|[| |]|]; try discriminate H. apply rbind_ok in H as (y' & T & H). unfold to_enum in T.
  destruct (member frame_layouts y) eqn:M; [|discriminate T]. apply Ok_eq in T. subst y'. apply Ok_eq in H. congruence.
Qed.
(** Another payload leaves the attributes. *)
Lemma other_payload m d x d' x' n : In n [$"grain_type"; $"source_id"; $"flow_id"; $"origin_timestamp"; $"sync_timestamp"; $"creation_timestamp"; $"rate"; $"duration"; $"cog_frame_format"; $"width"; $"height"; $"cog_frame_layout"] ->
  getattr (mkO KVideo m d x) n = getattr (mkO KVideo m d' x') n.
Proof. intros I. cbn [In] in I. repeat (destruct I as [<-|I]; [reflexivity|]). destruct I. Qed.
Ltac same_attr := rewrite other_payload with (d' := _) (x' := _); [|cbn [In]; tauto].

Lemma similar_grain u5 now o f f' w h d src flow origin sync rate duration layout : video_of o f w h d -> labelled o src flow origin sync rate duration layout -> In f' formats -> 0 <= w -> 0 <= h ->
  exists m z, np_similar u5 now o f' = Ok (mkO KVideo m z None) /\ forall d', zlen d' = size_for_format f' w h ->
    video_of (mkO KVideo m (Some d') None) f' w h d' /\ labelled (mkO KVideo m (Some d') None) src (u5 flow f') origin sync rate duration layout /\
    getattr (mkO KVideo m (Some d') None) $"creation_timestamp" = Ok (PTime now) /\ labels (mkO KVideo m (Some d') None) = Ok [].
Proof.
  intros V [LS LF LO LY [LR [R1 R2]] [LD [D1 D2]] LL] I W H. pose proof (layout_member o layout (vo_class _ _ _ _ _ V) LL) as ML. destruct rate as [rn rd], duration as [dn dd]. cbn [fst snd] in *.
  set (k := mkKw (Some src) (Some (u5 flow f')) (Some origin) (Some sync) None (rn, rd) (dn, dd)).
  destruct (proj2 (video_kw_total now k f' w h layout ANone) (fun _ => size_nonneg f' w h W H)) as [n N].
  assert (S : np_similar u5 now o f' = np_kw now k f' w h layout ANone).
  { unfold np_similar, attr. rewrite LS, LF, LO, LY, LR, LD, LL, (vo_width _ _ _ _ _ V), (vo_height _ _ _ _ _ V). reflexivity. }
  pose proof (video_kw now k f' w h layout ANone n N) as (CA & (_ & (b & GB & ZB & _) & WT) & AW & AH & AF & AL & AC). specialize (AF (format_member f' I)). specialize (AL ML).
  pose proof (kw_video_faithful now k f' w h layout ANone n N) as FA.
  assert (SH : exists m z y, n = mkO KVideo m z y /\ labels n = Ok []).
  { clear - N. unfold kw_video in N. change (PDict [($"format", PInt f'); ($"width", PInt w); ($"height", PInt h); ($"layout", PInt layout); ($"extension", PInt 0); ($"components", PList [])])
      with (video_part_kw f' w h layout (PList [])) in N. rewrite video_init_kw in N. apply rbind_ok in N as (a' & _ & N). apply Ok_eq in N.
    destruct (kw_shape KVideo now k (video_part_kw f' w h layout (PList (map comp_dict (components_for_format f' w h)))) a') as (x & y & Q). cbn [type_name part_name] in Q. rewrite Q in N. subst n.
    unfold kw_obj. do 3 eexists. split; [reflexivity|]. unfold k, kw_grain. reflexivity. }
  destruct SH as (m & z & y & -> & LN). cbn [o_wait] in WT. subst y.
  destruct (np_arrays_ok (mkO KVideo m z None) f' w h b eq_refl AF AC GB ZB I W H) as (item & l & _ & _ & _ & A).
  exists m, z. split.
  { rewrite S. unfold np_kw. rewrite N. cbn [rbind]. unfold with_arrays. rewrite A. reflexivity. }
  intros d' L. destruct CA as [CT CS CF CC CO CY CR CD]. destruct (CS src eq_refl) as [CS1 _]. specialize (CF _ eq_refl).
  specialize (CR rn rd eq_refl R1 R2). specialize (CD dn dd eq_refl D1 D2).
  unfold attr_is in *. cbn [k_creation k_origin k_sync k or_else] in *.
  assert (P : forall q v, In q [$"grain_type"; $"source_id"; $"flow_id"; $"origin_timestamp"; $"sync_timestamp"; $"creation_timestamp"; $"rate"; $"duration"; $"cog_frame_format"; $"width"; $"height"; $"cog_frame_layout"] ->
    getattr (mkO KVideo m z None) q = Ok v -> getattr (mkO KVideo m (Some d') None) q = Ok v).
  { intros q v Q E. rewrite <- E. apply other_payload. exact Q. }
  split; [|split; [|split]].
  - constructor; try (apply P; [cbn [In]; tauto|assumption]); try reflexivity; try assumption.
  - constructor; try (apply P; [cbn [In]; tauto|assumption]); cbn [fst snd]; (split; [apply P; [cbn [In]; tauto|assumption]|split; assumption]).
  - apply P; [cbn [In]; tauto|assumption].
  - exact LN.
Qed.

(** Converting to another format. *)
Theorem converted u5 now fuel noise o f f' w h d src flow origin sync rate duration layout :
  video_of o f w h d -> bytes_ok d -> labelled o src flow origin sync rate duration layout -> (4 <= fuel)%nat -> In f formats -> In f' formats -> f' <> f -> 0 <= w -> 0 <= h -> w mod 2 = 0 -> h mod 2 = 0 ->
  exists o' d' g, np_convert u5 now fuel noise o f' = Ok o' /\ video_of o' f' w h d' /\ bytes_ok d' /\ labelled o' src (u5 flow f') origin sync rate duration layout /\
    getattr o' $"creation_timestamp" = Ok (PTime now) /\ labels o' = Ok [] /\
    convert fuel conversions noise (shown f w h d) f' = Ok g /\ np_ok g /\ same_shape g (shown f' w h d') /\ forall i, 0 <= i < g_len g -> g_data (shown f' w h d') i = g_data g i.
Proof.
  intros V B LB FU I I' NE W H EW EH. destruct (similar_grain u5 now o f f' w h d src flow origin sync rate duration layout V LB I' W H) as (m & z & S & K).
  destruct (shown_ok f w h d I W H (vo_length _ _ _ _ _ V) B) as [NO _].
  destruct (convert_all fuel noise (shown f w h d) f' FU NO I I' EW EH) as (g & E & GO & GF & [GW GH]). cbn [shown g_w g_h] in GW, GH.
  destruct (items_back f' w h g I' GO GF (eq_sym GW) (eq_sym GH)) as (L & B' & SH & D). destruct (K (np_items g) L) as (K1 & K2 & K3 & K4).
  exists (mkO KVideo m (Some (np_items g)) None), (np_items g), g. split; [|auto 10].
  unfold np_convert. unfold attr at 1. rewrite (vo_format _ _ _ _ _ V). cbn [rbind to_int]. replace (f =? f') with false by lia. rewrite S. cbn [rbind]. rewrite (seen_shown o f w h d V I W H). cbn [rbind]. rewrite E. reflexivity.
Qed.

(** A numpy grain of a grain, and converting to the format it has: the same metadata and payload. *)
Theorem again now o f w h d : video_of o f w h d -> In f formats -> 0 <= w -> 0 <= h -> np_of now o = Ok (mkO KVideo (o_meta o) (Some d) None).
Proof.
  intros [C F T FM WD HT CO D L] I W H. assert (NB : forall a, not_bytes KVideo a) by (intros a; exact Logic.I).
  destruct F as [_ F]. rewrite C in F. specialize (F now). pose proof (init_again KVideo now now (o_meta o) ANone (ABytes d) _ (NB _) (NB _) F) as E. cbn [o_meta] in E.
  unfold np_of. rewrite C, D. cbn [rbind arg_of_data]. rewrite E. cbn [rbind]. change (mk KVideo (o_meta o) (ABytes d)) with (mkO KVideo (o_meta o) (Some d) None). unfold with_arrays.
  destruct (np_arrays_ok (mkO KVideo (o_meta o) (Some d) None) f w h d) as (item & l & _ & _ & _ & A); try assumption; try reflexivity.
  - rewrite <- FM. destruct o as [c m x y]. cbn [o_class] in C. subst c. reflexivity.
  - rewrite A. reflexivity.
Qed.
Lemma same_meta o f w h d : video_of o f w h d -> video_of (mkO KVideo (o_meta o) (Some d) None) f w h d.
Proof.
  intros [C F T FM WD HT CO D L]. destruct o as [c m x y]. cbn [o_class o_meta] in *. subst c.
  constructor; try assumption; try reflexivity.
  all: rewrite other_payload with (d' := x) (x' := y); [assumption|cbn [In]; tauto].
Qed.
Lemma same_labels o d src flow origin sync rate duration layout : o_class o = KVideo -> labelled o src flow origin sync rate duration layout -> labelled (mkO KVideo (o_meta o) (Some d) None) src flow origin sync rate duration layout.
Proof.
  intros C [LS LF LO LY LR LD LL]. destruct o as [c m x y]. cbn [o_class o_meta] in *. subst c.
  constructor; rewrite other_payload with (d' := x) (x' := y); assumption || (cbn [In]; tauto).
Qed.

(** Conversions one after the other. *)
Theorem chain u5 now fuel noise src origin sync rate duration layout w h : (4 <= fuel)%nat -> 0 <= w -> 0 <= h -> w mod 2 = 0 -> h mod 2 = 0 -> forall fmts o f d flow,
  video_of o f w h d -> bytes_ok d -> labelled o src flow origin sync rate duration layout -> In f formats -> Forall (fun g => In g formats) fmts ->
  exists o' d', np_converts u5 now fuel noise o fmts = Ok o' /\ video_of o' (last_of f fmts) w h d' /\ bytes_ok d' /\
    labelled o' src (flow_after u5 f flow fmts) origin sync rate duration layout.
Proof.
  intros FU W H EW EH. induction fmts as [|g fmts IH]; intros o f d flow V B LB I FA.
  - exists o, d. split; [reflexivity|]. auto.
  - apply Forall_cons_iff in FA as [IG FA]. cbn [np_converts flow_after]. destruct (Z.eq_dec g f) as [-> |NE].
    + assert (C : np_convert u5 now fuel noise o f = Ok (mkO KVideo (o_meta o) (Some d) None)).
      { unfold np_convert. unfold attr at 1. rewrite (vo_format _ _ _ _ _ V). cbn [rbind to_int]. rewrite Z.eqb_refl. exact (again now o f w h d V I W H). }
      rewrite C. cbn [rbind]. rewrite Z.eqb_refl. exact (IH _ f d flow (same_meta _ _ _ _ _ V) B (same_labels _ _ _ _ _ _ _ _ _ (vo_class _ _ _ _ _ V) LB) I FA).
    + destruct (converted u5 now fuel noise o f g w h d src flow origin sync rate duration layout V B LB FU I IG NE W H EW EH) as (o1 & d1 & g1 & C & V1 & B1 & L1 & _).
      rewrite C. cbn [rbind]. replace (g =? f) with false by lia. exact (IH o1 g d1 (u5 flow g) V1 B1 L1 IG FA).
Qed.

(** Pictures. *)
Lemma shown_alike k g g' : has_kind g k -> same_shape g g' -> (forall i, 0 <= i < g_len g -> g_data g' i = g_data g i) ->
  forall n x y, In n (names (k_model k)) -> in_comp k g n x y -> sample g' n x y = sample g n x y.
Proof.
  intros K S D n x y N [X Y]. destruct (comp_view g k n K N) as (l & i & v & _ & (_ & IN & _) & _ & NE & C & VW & VH).
  rewrite (sample_view g n v x y C). rewrite (sample_view g' n v x y) by (rewrite (same_shape_comp g g' n S); exact C). apply D. apply (IN i v x y NE). split; [rewrite VW; exact X|rewrite VH; exact Y].
Qed.
Theorem converted_kind u5 now fuel noise o f f' k w h d src flow origin sync rate duration layout :
  video_of o f w h d -> bytes_ok d -> labelled o src flow origin sync rate duration layout -> In (f, k) kinds -> In (f', k) kinds -> f' <> f -> 0 <= w -> 0 <= h -> w mod 2 = 0 -> h mod 2 = 0 -> (4 <= fuel)%nat ->
  exists o' d', np_convert u5 now fuel noise o f' = Ok o' /\ video_of o' f' w h d' /\
    (forall n x y, In n (names (k_model k)) -> 0 <= x < comp_w k n w -> 0 <= y < comp_h k n h -> sample (shown f' w h d') n x y = sample (shown f w h d) n x y) /\
    (in_order f k = in_order f' k -> 0 < w -> 0 < h -> forall rwa rwb max, max <> Some 0 -> compute_psnr now rwa rwb max o o' = (o, o', Ok [PvInf; PvInf; PvInf])).
Proof.
  intros V B LB I I' NE W H EW EH FU. assert (IF : In f formats) by (unfold formats; apply in_or_app; left; apply (in_map fst _ (f, k)), I). assert (IF' : In f' formats) by (unfold formats; apply in_or_app; left; apply (in_map fst _ (f', k)), I').
  destruct (converted u5 now fuel noise o f f' w h d src flow origin sync rate duration layout V B LB FU IF IF' NE W H EW EH) as (o' & d' & g & C & V' & B' & _ & _ & _ & E & GO & SH & D).
  destruct (shown_ok f w h d IF W H (vo_length _ _ _ _ _ V) B) as [NO _]. assert (HK : has_kind (shown f w h d) k) by (split; [exact I|exact NO]).
  pose proof (even_all f k w h I EW EH) as EV. destruct fuel as [|fuel]; [lia|].
  destruct (same_kind_copy fuel noise (shown f w h d) k f' HK I' EV) as (g' & E' & GF & GK & (SW & SHH & SP)). rewrite E in E'. apply Ok_eq in E'. subst g'.
  assert (P : forall n x y, In n (names (k_model k)) -> 0 <= x < comp_w k n w -> 0 <= y < comp_h k n h -> sample (shown f' w h d') n x y = sample (shown f w h d) n x y).
  { intros n x y N X Y. rewrite (SP n x y N X Y). apply (shown_alike k g); try assumption. cbn [shown g_w g_h] in SW, SHH. split; [rewrite <- SW; exact X|rewrite <- SHH; exact Y]. }
  exists o', d'. split; [exact C|]. split; [exact V'|]. split; [exact P|]. intros O PW PH rwa rwb max MX. destruct (kind_fact f k I) as (_ & _ & HS & VS & _).
  destruct (video_same now rwa rwb max o o' f f' k k w h d d' V V' I I' eq_refl eq_refl O) as (vs & CP & LN & IFF); [destruct HS as [-> | ->]; lia|destruct VS as [-> | ->]; lia|exact MX|].
  rewrite CP. f_equal. f_equal. assert (F : Forall (eq PvInf) vs) by (apply IFF; intros n x y N X Y; symmetry; apply P; assumption).
  destruct vs as [|a [|b [|c [|e vs]]]]; try discriminate LN. apply Forall_cons_iff in F as [<- F]. apply Forall_cons_iff in F as [<- F]. apply Forall_cons_iff in F as [<- _]. reflexivity.
Qed.
