(** Proofs about numpy video grains as objects. *)
From Coq Require Import String Lia ZifyBool ZifyNat.
From Verif Require Import Base BaseProofs GsfPrim GsfPrimProofs CogEnums VideoLayout LayoutSpec LayoutProofs PatternSpec JsonProofs PyValue GrainObj BuildSpec BuildMain BuildKw GrainCopy GrainCopySpec GrainCopyMade GrainGsf
  NpView NpSpec NpViewProofs NpGrainProofs NpConvert NpConvSpec NpConvProofs V210Proofs NpTable NpTheorems NpDepth NpAudio NpAudioSpec Psnr PsnrSpec PsnrProofs PsnrMade NpObject NpObjectSpec.
Local Open Scope list_scope.
Ltac Zify.zify_post_hook ::= Z.div_mod_to_equations.

(** ** The arrays. *)
Lemma format_member f : In f formats -> member frame_formats f = true.
Proof. intros I. assert (X : forallb (member frame_formats) formats = true) by (vm_compute; reflexivity). rewrite forallb_forall in X. exact (X _ I). Qed.
Lemma format_shape f w h : In f formats -> 0 <= w -> 0 <= h -> exists item l, np_itemsize f = Ok item /\ 0 < item /\ size_for_format f w h mod item = 0 /\
  forallb (fun c => vc_stride c mod item =? 0) (components_for_format f w h) = true /\ views_of f item (components_for_format f w h) = Ok l /\
  (arrangement_of f = OX \/ zlen l = 3).
Proof.
  intros I W H. destruct (format_cases f I) as [[k K]| ->].
  - destruct (kind_views f k w h K W H) as (item & l & N & P & V & G & M). exists item, l. split; [exact N|]. split; [exact P|]. split; [exact M|].
    split; [exact (kind_strides f k w h item K W H N P)|]. split; [exact V|]. right. destruct G as (_ & _ & x & y & z & -> & _). reflexivity.
  - exists 4, []. split; [reflexivity|]. split; [lia|]. rewrite v210_size by assumption. split; [apply Z.mod_mul; lia|]. split; [|split; [reflexivity|left; reflexivity]].
    change (components_for_format v210 w h) with [mkVc (((w + 47) / 48) * 128) 0 w h (h * (((w + 47) / 48) * 128))]. cbn [forallb vc_stride]. rewrite andb_true_r. apply Z.eqb_eq. lia.
Qed.
Lemma np_arrays_ok o f w h d : o_class o = KVideo -> getattr o $"cog_frame_format" = Ok (PInt f) -> in_section $"cog_frame" $"components" o = Ok (PList (map comp_dict (components_for_format f w h))) ->
  get_data o = Ok (Some d) -> zlen d = size_for_format f w h -> In f formats -> 0 <= w -> 0 <= h ->
  exists item l, np_itemsize f = Ok item /\ 0 < item /\ zlen d mod item = 0 /\ np_arrays o = Ok (mkNv f item d l).
Proof.
  intros C FM CO D L I W H. destruct (format_shape f w h I W H) as (item & l & N & P & M & S & V & A). exists item, l. rewrite L. split; [exact N|]. split; [exact P|]. split; [exact M|].
  unfold np_arrays. rewrite D. cbn [rbind]. unfold attr. rewrite FM. cbn [rbind to_int]. rewrite N. cbn [rbind]. rewrite L, M. cbn [Z.eqb negb].
  unfold components. rewrite C, CO. cbn [rbind as_list]. rewrite read_comps. cbn [rbind]. rewrite S. cbn [negb]. rewrite V. cbn [rbind].
  destruct A as [-> |A]; [reflexivity|]. rewrite A. destruct (arrangement_of f); reflexivity.
Qed.

(** ** Payloads and items. *)
Lemma seen_shown o f w h d : video_of o f w h d -> In f formats -> 0 <= w -> 0 <= h -> np_seen o = Ok (shown f w h d).
Proof.
  intros [C _ _ FM WD HT CO D L] I W H. destruct (np_arrays_ok o f w h d C FM CO D L I W H) as (item & l & N & P & M & A).
  unfold np_seen. rewrite D. cbn [rbind]. rewrite A. unfold attr. rewrite WD, HT. cbn [rbind as_size nv_fmt nv_item nv_data]. unfold shown. rewrite N. reflexivity.
Qed.
Lemma shown_shape f w h (d : bytes) : In f formats -> 0 <= w -> 0 <= h -> zlen d = size_for_format f w h ->
  exists g0, ng_new f w h = Ok g0 /\ g_item (shown f w h d) = g_item g0 /\ g_len (shown f w h d) = g_len g0 /\
    0 < g_item g0 /\ g_len g0 * g_item g0 = size_for_format f w h /\ np_itemsize f = Ok (g_item g0).
Proof.
  intros I W H L. destruct (format_shape f w h I W H) as (it & l & N & P & M & _). unfold shown. rewrite N. cbn [g_item g_len]. rewrite L.
  destruct (format_cases f I) as [[k K]| ->].
  - destruct (kind_new f k w h K W H) as (g & E & _ & _ & _ & NI & GL & _). exists g. rewrite NI in N. apply Ok_eq in N. subst it. split; [exact E|]. split; [reflexivity|]. split; [symmetry; exact GL|]. split; [exact P|].
    split; [rewrite GL; set (s := size_for_format f w h) in *; set (i := g_item g) in *; clearbody s i; clear - P M; pose proof (Z.div_mod s i ltac:(lia)); nia|reflexivity].
  - destruct (v210_new w h W H) as (g & E & _ & _ & _ & GI & GL). exists g. split; [exact E|]. change (np_itemsize v210) with (Ok 4) in *. apply Ok_eq in N. subst it. rewrite GI. split; [reflexivity|].
    rewrite v210_size by assumption. rewrite GL. rewrite Z.div_mul by lia. split; [reflexivity|]. split; [lia|]. split; reflexivity.
Qed.
Lemma bytes_part n m d : bytes_ok d -> bytes_ok (zfirst n (zskip m d)).
Proof. intros B. apply bytes_ok_zfirst, bytes_ok_zskip, B. Qed.
Lemma shown_ok f w h d : In f formats -> 0 <= w -> 0 <= h -> zlen d = size_for_format f w h -> bytes_ok d -> np_ok (shown f w h d) /\ g_fmt (shown f w h d) = f.
Proof.
  intros I W H L B. destruct (shown_shape f w h d I W H L) as (g0 & E & GI & GL & P & X & _). split; [|reflexivity]. split; [exact W|]. split; [exact H|]. split; [exists g0; auto|].
  intros i R. unfold shown at 1. cbn [g_data]. set (it := match np_itemsize f with Ok item => item | Err _ => 1 end). change (g_item (shown f w h d)) with it in *. change little_endian with le_dec.
  pose proof (le_dec_bound (sample_bytes it d i) (bytes_part _ _ _ B)) as Q.
  assert (zlen (sample_bytes it d i) = it) as Y.
  { unfold sample_bytes. rewrite GL in R. rewrite <- X, <- GI in L. apply NpAudioProofs.sample_len; rewrite ?L, ?GI; nia. }
  rewrite Y in Q. replace (2 ^ (8 * it)) with (256 ^ it); [exact Q|]. rewrite Z.pow_mul_r by lia. reflexivity.
Qed.
Lemma zrange_at n i : 0 <= i < n -> nth_error (zrange n) (Z.to_nat i) = Some i.
Proof. intros H. unfold zrange. rewrite nth_error_map. rewrite (nth_error_nth' (seq 0 (Z.to_nat n)) 0%nat) by (rewrite seq_length; lia). rewrite seq_nth by lia. cbn [option_map]. f_equal. lia. Qed.
Lemma pieces_at (F : Z -> bytes) size : 0 <= size -> (forall x, zlen (F x) = size) -> forall l j x, nth_error l j = Some x ->
  zfirst size (zskip (Z.of_nat j * size) (flat_map F l)) = F x.
Proof.
  intros SP E. induction l as [|y l IH]; intros [|j] x N; try discriminate.
  - cbn [nth_error] in N. injection N as ->. cbn [flat_map]. rewrite zskip_le0 by lia. rewrite <- (E x). apply zfirst_app.
  - cbn [nth_error] in N. cbn [flat_map]. rewrite zskip_app_ge by (rewrite E; nia). rewrite E. replace (Z.of_nat (S j) * size - size) with (Z.of_nat j * size) by lia. exact (IH j x N).
Qed.
Lemma pieces_len (F : Z -> bytes) size : (forall x, zlen (F x) = size) -> forall l, zlen (flat_map F l) = zlen l * size.
Proof. intros E. induction l as [|y l IH]; [reflexivity|]. cbn [flat_map]. rewrite zlen_app, E, IH, zlen_cons. ring. Qed.

(** A grain of a format has a payload, and is shown by it. *)
Lemma items_back f w h g : In f formats -> np_ok g -> g_fmt g = f -> g_w g = w -> g_h g = h ->
  zlen (np_items g) = size_for_format f w h /\ bytes_ok (np_items g) /\ same_shape g (shown f w h (np_items g)) /\
  forall i, 0 <= i < g_len g -> g_data (shown f w h (np_items g)) i = g_data g i.
Proof.
  intros I (W & H & (g0 & E & GI & GL) & B) F Ew Eh. subst w h f.
  assert (Z0 : exists d : bytes, zlen d = size_for_format (g_fmt g) (g_w g) (g_h g)).
  { exists (repeat 0 (Z.to_nat (size_for_format (g_fmt g) (g_w g) (g_h g)))). unfold zlen. rewrite repeat_length. pose proof (size_nonneg (g_fmt g) (g_w g) (g_h g) W H). lia. }
  destruct Z0 as [d0 L0]. destruct (shown_shape _ _ _ d0 I W H L0) as (g1 & E1 & _ & _ & P & X & N). rewrite E in E1. apply Ok_eq in E1. subst g1. rewrite <- GI, <- GL in X. rewrite <- GI in P, N.
  assert (EL : forall x, zlen (enc_uint (Z.to_nat (g_item g)) (g_data g x)) = g_item g) by (intros x; rewrite enc_uint_len; lia).
  assert (L : zlen (np_items g) = size_for_format (g_fmt g) (g_w g) (g_h g)).
  { unfold np_items. rewrite (pieces_len _ (g_item g) EL). rewrite zrange_len. rewrite <- X. pose proof (size_nonneg (g_fmt g) (g_w g) (g_h g) W H) as S. rewrite <- X in S. rewrite Z.max_r by nia. reflexivity. }
  split; [exact L|]. split; [|split].
  - unfold np_items. apply Forall_forall. intros x Y. apply in_flat_map in Y as (j & _ & Y). exact (proj1 (Forall_forall _ _) (enc_uint_ok _ _) x Y).
  - destruct (shown_shape _ _ _ _ I W H L) as (g2 & E2 & SI & SL & _). rewrite E in E2. apply Ok_eq in E2. subst g2. split; [reflexivity|]. split; [reflexivity|]. split; [reflexivity|]. split; congruence.
  - intros i R. unfold shown. rewrite N. cbn [g_data]. unfold sample_bytes. change little_endian with le_dec. unfold np_items.
    pose proof (pieces_at _ (g_item g) ltac:(lia) EL (zrange (g_len g)) (Z.to_nat i) i (zrange_at _ _ R)) as Q. rewrite Z2Nat.id in Q by lia. rewrite Q.
    rewrite le_dec_enc. rewrite Z2Nat.id by lia. specialize (B i R). replace (256 ^ g_item g) with (2 ^ (8 * g_item g)) by (rewrite Z.pow_mul_r by lia; reflexivity). apply Z.mod_small. exact B.
Qed.
