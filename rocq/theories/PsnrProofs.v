(** Proofs about the peak signal to noise ratio of pictures. *)
From Coq Require Import String Lia ZifyBool ZifyNat.
From Verif Require Import Base BaseProofs GsfPrim CogEnums VideoLayout LayoutSpec LayoutProofs PatternSpec JsonProofs PyValue GrainObj BuildSpec BuildMain GrainCopy GrainCopySpec GrainGsf
  NpView NpSpec NpViewProofs NpGrainProofs NpAudio NpAudioSpec Psnr PsnrSpec.
Local Open Scope list_scope.
Ltac Zify.zify_post_hook ::= Z.div_mod_to_equations.

(** ** Elements. *)
Definition sumsq (l : list Z) : Z := fold_right Z.add 0 (map (fun z => z * z) l).
Lemma sumsq_nonneg l : 0 <= sumsq l.
Proof. unfold sumsq. induction l as [|z l IH]; cbn [map fold_right]; [lia|]. pose proof (Z.square_nonneg z). lia. Qed.
Lemma fold_squares l : forall s, fold_left add_square (map Fin l) (Fin s) = Fin (s + sumsq l).
Proof. unfold sumsq. induction l as [|z l IH]; intros s; cbn [map fold_left fold_right add_square]; [f_equal; lia|]. rewrite IH. f_equal. lia. Qed.
Lemma element_finite m unit l : m <> 0 -> 0 < unit -> exists v, element_psnr (Some m) unit (map Fin l) = Ok v /\ is_psnr (m * unit) (zlen l) (sumsq l) v.
Proof.
  intros M U. unfold element_psnr, is_psnr. destruct l as [|z l].
  - cbn [map square_sum]. exists PvNan. split; [reflexivity|]. split; [reflexivity|]. split; intros H; destruct (H eq_refl).
  - change (square_sum (map Fin (z :: l))) with (fold_left add_square (map Fin (z :: l)) (Fin 0)). rewrite fold_squares. rewrite Z.add_0_l.
    assert (N : zlen (z :: l) <> 0) by (rewrite zlen_cons; pose proof (zlen_nonneg l); lia). assert (P : 0 < zlen (z :: l)) by (pose proof (zlen_nonneg (z :: l)); lia).
    replace (zlen (map Fin (z :: l))) with (zlen (z :: l)) by (unfold zlen; rewrite map_length; reflexivity).
    set (s := sumsq (z :: l)) in *. pose proof (sumsq_nonneg (z :: l)) as S0. fold s in S0. set (c := zlen (z :: l)) in *. clearbody s c.
    destruct (s =? 0) eqn:E.
    + exists PvInf. split; [reflexivity|]. split; [intros; lia|]. split; [reflexivity|intros; lia].
    + destruct (m =? 0) eqn:E2; [lia|]. eexists. split; [reflexivity|]. split; [intros; lia|]. split; [intros; lia|]. intros _ _. eexists. eexists. split; [reflexivity|].
      clear - M U S0 E P. assert (0 < m * m) by nia. assert (0 < unit * unit) by nia. assert (0 < m * m * (unit * unit)) by nia.
      split; [nia|]. split; [lia|]. ring.
Qed.

(** ** Sums. *)
Lemma zrange_between n : zrange n = between 0 n.
Proof. unfold zrange, between. rewrite Z.sub_0_r. apply map_ext. intros m. lia. Qed.
Lemma fold_add_app l l' : fold_right Z.add 0 (l ++ l') = fold_right Z.add 0 l + fold_right Z.add 0 l'.
Proof. induction l as [|z l IH]; cbn [app fold_right]; [reflexivity|]. rewrite IH. ring. Qed.
Lemma sumsq_cells (f : Z -> Z -> Z) l1 l2 : sumsq (flat_map (fun y => map (fun x => f x y) l1) l2) = fold_right Z.add 0 (map (fun y => fold_right Z.add 0 (map (fun x => f x y * f x y) l1)) l2).
Proof.
  unfold sumsq. induction l2 as [|y l2 IH]; cbn [flat_map map fold_right]; [reflexivity|]. rewrite map_app, fold_add_app, IH. f_equal. rewrite map_map. reflexivity.
Qed.
Lemma sum_ext n f g : (forall i, 0 <= i < n -> f i = g i) -> sum n f = sum n g.
Proof.
  intros H. unfold sum. f_equal. apply map_ext_in. intros i I. apply H. unfold between in I. apply in_map_iff in I as (m & <- & M). apply in_seq in M. lia.
Qed.
Lemma zrange_len n : zlen (zrange n) = Z.max 0 n.
Proof. unfold zrange, zlen. rewrite map_length, seq_length. lia. Qed.
Lemma cells_len (f : Z -> Z -> Z) l1 l2 : zlen (flat_map (fun y => map (fun x => f x y) l1) l2) = zlen l1 * zlen l2.
Proof.
  induction l2 as [|y l2 IH]; [unfold zlen; cbn [flat_map List.length]; lia|]. cbn [flat_map]. rewrite zlen_app, IH, (zlen_cons y l2). unfold zlen at 1. rewrite map_length. fold (zlen l1). ring.
Qed.

(** ** The arrays of a picture. *)
Lemma kind_picture f k : In (f, k) kinds -> exists p, In (f, p) pictures /\
  match p with Planar _ _ b => np_itemsize f = Ok b | Packed n => exists i, np_itemsize f = Ok i /\ (i = 1 \/ i = 2 /\ n = 4) | Grouped => False end.
Proof.
  intros I. assert (X : forallb (fun fk => existsb (fun fp => (fst fp =? fst fk) && match snd fp, np_itemsize (fst fk) with
    | Planar _ _ b, Ok i => i =? b | Packed n, Ok i => (i =? 1) || (i =? 2) && (n =? 4) | _, _ => false end) pictures) kinds = true) by (vm_compute; reflexivity).
  rewrite forallb_forall in X. specialize (X _ I). apply existsb_exists in X as ([f' p] & Q & X). cbn [fst snd] in X. apply andb_true_iff in X as [X Y]. apply Z.eqb_eq in X. subst f'.
  exists p. split; [exact Q|]. destruct p as [hs vs b|n|], (np_itemsize f) as [i|]; try discriminate Y.
  - f_equal. lia.
  - exists i. split; [reflexivity|]. lia.
Qed.
Lemma kind_strides f k w h item : In (f, k) kinds -> 0 <= w -> 0 <= h -> np_itemsize f = Ok item -> 0 < item ->
  forallb (fun c => vc_stride c mod item =? 0) (components_for_format f w h) = true.
Proof.
  intros I W H N P. destruct (kind_picture f k I) as (p & Q & E). pose proof (video_planes f p w h Q W H) as V.
  assert (X : forallb (fun g => snd g mod item =? 0) (map geometry (components_for_format f w h)) = true).
  { rewrite V. destruct p as [hs vs b|n|]; cbn [planes forallb snd].
    - rewrite N in E. injection E as ->. rewrite !Z.mod_mul by lia. reflexivity.
    - destruct E as (i & E & J). rewrite N in E. injection E as ->. destruct J as [-> |[-> ->]]; [rewrite Z.mod_1_r; reflexivity|]. replace (w * 4) with (w * 2 * 2) by ring. rewrite Z.mod_mul by lia. reflexivity.
    - destruct E. }
  clear - X. induction (components_for_format f w h) as [|c l IH]; [reflexivity|]. cbn [map forallb snd geometry] in *. apply andb_true_iff in X as [-> X]. exact (IH X).
Qed.
Lemma read_comps l : map_res read_comp (map comp_dict l) = Ok l.
Proof. induction l as [|[s o w h n] l IH]; [reflexivity|]. cbn [map map_res]. rewrite IH. reflexivity. Qed.

Lemma numpy_picture now o f k w h d : video_of o f w h d -> In (f, k) kinds -> 0 <= w -> 0 <= h ->
  exists item l, np_itemsize f = Ok item /\ 0 < item /\ numpy_video now o = Ok (mkNv f item d l) /\ views_of f item (components_for_format f w h) = Ok l /\ good_views l k w h (zlen d / item) /\ zlen d mod item = 0.
Proof.
  intros [C F T FM WD HT CO D L] I W H. destruct (kind_views f k w h I W H) as (item & l & N & P & V & G & M). exists item, l. rewrite L.
  split; [exact N|]. split; [exact P|]. split; [|split; [exact V|split; [exact G|exact M]]].
  assert (NB : forall a, not_bytes KVideo a) by (intros a; exact Logic.I).
  destruct F as [_ F]. rewrite C in F. specialize (F now). pose proof (init_again KVideo now now (o_meta o) ANone (ABytes d) _ (NB _) (NB _) F) as E. cbn [o_meta] in E.
  assert (DD : o_data o = Some d) by (unfold get_data in D; rewrite C in D; congruence).
  unfold numpy_video. rewrite C, D. cbn [rbind arg_of_data]. rewrite E. cbn [rbind].
  set (n := mk KVideo (o_meta o) (ABytes d)).
  assert (GD : get_data n = Ok (Some d)) by reflexivity. rewrite GD. cbn [rbind].
  assert (GF : attr to_int $"cog_frame_format" n = Ok f).
  { unfold attr. replace (getattr n $"cog_frame_format") with (getattr o $"cog_frame_format"); [rewrite FM; reflexivity|]. clear - C. destruct o as [c m x y]. cbn [o_class] in C. subst c. reflexivity. }
  assert (GC : components n = Ok (map comp_dict (components_for_format f w h))).
  { unfold components. change (o_class n) with KVideo. cbv iota. replace (in_section $"cog_frame" $"components" n) with (in_section $"cog_frame" $"components" o); [rewrite CO; reflexivity|].
    clear - C. destruct o as [c m x y]. reflexivity. }
  rewrite GF. cbn [rbind]. rewrite N. cbn [rbind]. rewrite L, M. cbn [Z.eqb negb]. rewrite GC. cbn [rbind]. rewrite read_comps. cbn [rbind].
  rewrite (kind_strides f k w h item I W H N P). cbn [negb]. rewrite V. cbn [rbind]. destruct G as (_ & _ & x & y & z & -> & _). cbn [zlen List.length]. destruct (arrangement_of f); reflexivity.
Qed.

Lemma le_dec_little b : le_dec b = little_endian b.
Proof. induction b as [|x b IH]; [reflexivity|]. cbn [le_dec little_endian]. rewrite IH. reflexivity. Qed.
Lemma nv_array_inside f item d l v i : 0 < item -> zlen d mod item = 0 -> inside l (zlen d / item) -> nth_error l i = Some v ->
  nv_array (mkNv f item d l) v = Ok (v_read (nv_value (mkNv f item d l)) v).
Proof.
  intros P M IN N. unfold nv_array. cbn [nv_item nv_data]. destruct (forallb _ (v_cells v)) eqn:X; [reflexivity|]. exfalso.
  rewrite <- Bool.not_true_iff_false in X. apply X. apply forallb_forall. intros [x y] IC. apply in_cells in IC. cbn [fst snd]. specialize (IN i v x y N IC). set (p := v_addr v x y) in *. clearbody p.
  assert (E : zlen d = zlen d / item * item) by (pose proof (Z.div_mod (zlen d) item ltac:(lia)); lia). set (q := zlen d / item) in *. clearbody q. apply andb_true_iff. split; [lia|]. apply Z.leb_le. rewrite E. clear - P IN. nia.
Qed.
Lemma nv_value_is f item d l i : nv_value (mkNv f item d l) i = little_endian (sample_bytes item d i).
Proof. unfold nv_value, sample_bytes. cbn [nv_item nv_data]. apply le_dec_little. Qed.

(** Two arrays of one shape. *)
Lemma component_same m f f' item item' d d' l l' v v' i i' :
  0 < item -> 0 < item' -> zlen d mod item = 0 -> zlen d' mod item' = 0 -> inside l (zlen d / item) -> inside l' (zlen d' / item') ->
  nth_error l i = Some v -> nth_error l' i' = Some v' -> v_w v = v_w v' -> v_h v = v_h v' -> 0 <= v_w v -> 0 <= v_h v -> m <> 0 ->
  exists r, component_psnr (Some m) (mkNv f item d l) (mkNv f' item' d' l') (v, v') = Ok r /\
    is_psnr m (v_w v * v_h v)
      (sum (v_h v) (fun y => sum (v_w v) (fun x =>
         (little_endian (sample_bytes item d (v_addr v x y)) - little_endian (sample_bytes item' d' (v_addr v' x y))) *
         (little_endian (sample_bytes item d (v_addr v x y)) - little_endian (sample_bytes item' d' (v_addr v' x y)))))) r.
Proof.
  intros P P' M M' IN IN' N N' EW EH W H MX. unfold component_psnr. cbn [fst snd].
  rewrite (nv_array_inside f item d l v i P M IN N), (nv_array_inside f' item' d' l' v' i' P' M' IN' N'). cbn [rbind].
  unfold a_map2, v_read. cbn [a_w a_h a_at]. rewrite <- EW, <- EH. unfold bcast. rewrite !Z.eqb_refl. cbn [rbind].
  unfold a_cells. cbn [a_w a_h a_at].
  set (g := fun x y => nv_value (mkNv f item d l) (v_addr v (bidx (v_w v) x) (bidx (v_h v) y)) - nv_value (mkNv f' item' d' l') (v_addr v' (bidx (v_w v) x) (bidx (v_h v) y))).
  destruct (element_finite m 1 (flat_map (fun y => map (fun x => g x y) (zrange (v_w v))) (zrange (v_h v))) MX ltac:(lia)) as (r & E & Q).
  exists r. split; [exact E|]. rewrite cells_len, !zrange_len, !Z.max_r, Z.mul_1_r, sumsq_cells, !zrange_between in Q by assumption.
  unfold sum at 1. replace (fold_right Z.add 0 (map _ (between 0 (v_h v)))) with (fold_right Z.add 0 (map (fun y => fold_right Z.add 0 (map (fun x => g x y * g x y) (between 0 (v_w v)))) (between 0 (v_h v)))); [exact Q|].
  f_equal. apply map_ext_in. intros y IY. unfold sum. f_equal. apply map_ext_in. intros x IX. unfold between in IX, IY. apply in_map_iff in IX as (x0 & <- & IX). apply in_map_iff in IY as (y0 & <- & IY). apply in_seq in IX, IY.
  unfold g. rewrite !bidx_in by lia. rewrite !nv_value_is. reflexivity.
Qed.

(** ** The components by name. *)
Lemma order_index f k : In (f, k) kinds -> exists a b c, in_order f k = [a; b; c] /\ cidx f a 0 /\ cidx f b 1 /\ cidx f c 2 /\
  In a (names (k_model k)) /\ In b (names (k_model k)) /\ In c (names (k_model k)).
Proof.
  intros I. assert (X : forallb (fun fk => match in_order (fst fk) (snd fk) with
    | [a; b; c] => match cindex (arrangement_of (fst fk)) a, cindex (arrangement_of (fst fk)) b, cindex (arrangement_of (fst fk)) c with
                   | Some 0%nat, Some 1%nat, Some 2%nat => true | _, _, _ => false end
    | _ => false end) kinds = true) by (vm_compute; reflexivity).
  rewrite forallb_forall in X. specialize (X _ I). cbn [fst snd] in X. unfold cidx.
  destruct (in_order f k) as [|a [|b [|c [|]]]] eqn:O; try discriminate X. exists a, b, c. split; [reflexivity|].
  destruct (cindex (arrangement_of f) a) as [[|]|]; try discriminate X. destruct (cindex (arrangement_of f) b) as [[|[|]]|]; try discriminate X. destruct (cindex (arrangement_of f) c) as [[|[|[|]]]|]; try discriminate X.
  split; [reflexivity|]. split; [reflexivity|]. split; [reflexivity|]. clear X. unfold in_order in O. destruct (existsb (Z.eqb f) [BGRx; xBGR]) eqn:E.
  - assert (K : k_model k = MRgb).
    { assert (Y : forallb (fun fk => negb (existsb (Z.eqb (fst fk)) [BGRx; xBGR]) || match k_model (snd fk) with MRgb => true | MYuv => false end) kinds = true) by (vm_compute; reflexivity).
      rewrite forallb_forall in Y. specialize (Y _ I). cbn [fst snd] in Y. rewrite E in Y. cbn [negb orb] in Y. destruct (k_model k); [discriminate Y|reflexivity]. }
    rewrite K. injection O as <- <- <-. cbn [names In]. tauto.
  - rewrite O. cbn [In]. tauto.
Qed.
Lemma depth_bits f k : In (f, k) kinds -> ACTIVE_BITS f = k_depth k /\ IS_COMPRESSED f = false /\ 0 < k_depth k /\ 0 < k_hs k /\ 0 < k_vs k.
Proof.
  intros I. assert (X : forallb (fun fk => (ACTIVE_BITS (fst fk) =? k_depth (snd fk)) && negb (IS_COMPRESSED (fst fk)) && (0 <? k_depth (snd fk)) && (0 <? k_hs (snd fk)) && (0 <? k_vs (snd fk))) kinds = true) by (vm_compute; reflexivity).
  rewrite forallb_forall in X. specialize (X _ I). cbn [fst snd] in X. repeat (apply andb_true_iff in X as [X ?]). destruct (IS_COMPRESSED f); [discriminate|]. lia.
Qed.
Lemma sample_shown f w h d item l v n i x y : np_itemsize f = Ok item -> views_of f item (components_for_format f w h) = Ok l -> cidx f n i -> nth_error l i = Some v ->
  sample (shown f w h d) n x y = little_endian (sample_bytes item d (v_addr v x y)).
Proof.
  intros N V C E. unfold sample, ng_comp, shown, ng_view, ng_views. cbn [g_fmt g_item g_w g_h g_data]. rewrite N, C, V. cbn [rbind]. rewrite E. reflexivity.
Qed.
Lemma order_sizes f k a b c : In (f, k) kinds -> in_order f k = [a; b; c] ->
  forall n, comp_w k a n = n /\ comp_h k a n = n /\ comp_w k b n = n / k_hs k /\ comp_h k b n = n / k_vs k /\ comp_w k c n = n / k_hs k /\ comp_h k c n = n / k_vs k.
Proof.
  intros I O n. assert (X : forallb (fun fk => match in_order (fst fk) (snd fk) with
    | [CY; CU; CV] => true | [CR; CG; CB] | [CB; CG; CR] => (k_hs (snd fk) =? 1) && (k_vs (snd fk) =? 1) | _ => false end) kinds = true) by (vm_compute; reflexivity).
  rewrite forallb_forall in X. specialize (X _ I). cbn [fst snd] in X. rewrite O in X. unfold comp_w, comp_h.
  destruct a; try discriminate X; destruct b; try discriminate X; destruct c; try discriminate X; try (repeat split; reflexivity);
    apply andb_true_iff in X as [X Y]; apply Z.eqb_eq in X, Y; rewrite X, Y, !Z.div_1_r; repeat split.
Qed.

Lemma py_int n : py_eq (PInt n) (PInt n) = true.
Proof. cbn [py_eq as_q]. rewrite Z.eqb_refl. reflexivity. Qed.
Theorem video_ratio now rwa rwb max a b f f' k k' w h d d' : video_of a f w h d -> video_of b f' w h d' -> In (f, k) kinds -> In (f', k') kinds ->
  k_hs k = k_hs k' -> k_vs k = k_vs k' -> 0 <= w -> 0 <= h -> max <> Some 0 ->
  exists vs, compute_psnr now rwa rwb max a b = (a, b, Ok vs) /\
    Forall2 (fun nn v => is_psnr (peak_or max (2 ^ k_depth k - 1)) (comp_w k (fst nn) w * comp_h k (fst nn) h)
                           (squares k w h (shown f w h d) (shown f' w h d') (fst nn) (snd nn)) v) (combine (in_order f k) (in_order f' k')) vs.
Proof.
  intros VA VB I I' HS VS W H MX.
  destruct (numpy_picture now a f k w h d VA I W H) as (item & l & N & P & NA & V & G & M). destruct (numpy_picture now b f' k' w h d' VB I' W H) as (item' & l' & N' & P' & NB & V' & G' & M').
  destruct (order_index f k I) as (n0 & n1 & n2 & O & C0 & C1 & C2 & _). destruct (order_index f' k' I') as (n0' & n1' & n2' & O' & C0' & C1' & C2' & _).
  destruct (depth_bits f k I) as (DB & CM & DP & HP & VP). destruct VA as [CA _ TA FA WA HA _ _ _], VB as [CB _ TB FB WB HB _ _ _].
  unfold compute_psnr. rewrite TA, TB. cbn [rbind]. replace (py_eq (PStr $"video") (PStr $"video")) with true by reflexivity. cbn [negb]. replace (type_is (PStr $"video") $"video") with true by reflexivity.
  unfold video_psnr. rewrite WA, WB, HA, HB. cbn [rbind]. rewrite !py_int. cbn [negb]. unfold attr at 1. rewrite FA. cbn [rbind to_int]. rewrite CM, NA, NB. cbn [rbind nv_fmt nv_views]. rewrite DB.
  set (peak := peak_or max (2 ^ k_depth k - 1)).
  assert (PK : peak <> 0).
  { unfold peak, peak_or. destruct max as [m|]; [intros ->; exact (MX eq_refl)|]. pose proof (Z.pow_gt_1 2 (k_depth k) ltac:(lia)). lia. }
  replace (match max with Some m => Some m | None => Some (2 ^ k_depth k - 1) end) with (Some peak) by (unfold peak, peak_or; destruct max; reflexivity).
  destruct G as (_ & IN & x & y & z & El & A1 & A2 & B1 & B2 & D1 & D2), G' as (_ & IN' & x' & y' & z' & El' & A1' & A2' & B1' & B2' & D1' & D2').
  rewrite <- HS in B1', D1'. rewrite <- VS in B2', D2'.
  assert (WD : 0 <= w / k_hs k) by (apply Z.div_pos; lia). assert (HD : 0 <= h / k_vs k) by (apply Z.div_pos; lia).
  subst l l'. cbn [combine map_res].
  destruct (component_same peak f f' item item' d d' _ _ x x' 0%nat 0%nat P P' M M' IN IN' eq_refl eq_refl ltac:(congruence) ltac:(congruence) ltac:(congruence) ltac:(congruence) PK) as (r0 & E0 & Q0).
  destruct (component_same peak f f' item item' d d' _ _ y y' 1%nat 1%nat P P' M M' IN IN' eq_refl eq_refl ltac:(congruence) ltac:(congruence) ltac:(congruence) ltac:(congruence) PK) as (r1 & E1 & Q1).
  destruct (component_same peak f f' item item' d d' _ _ z z' 2%nat 2%nat P P' M M' IN IN' eq_refl eq_refl ltac:(congruence) ltac:(congruence) ltac:(congruence) ltac:(congruence) PK) as (r2 & E2 & Q2).
  rewrite E0, E1, E2. cbn [rbind]. eexists. split; [reflexivity|].
  rewrite O, O'. cbn [combine]. pose proof (order_sizes f k n0 n1 n2 I O w) as (S0 & _ & S1 & _ & S2 & _). pose proof (order_sizes f k n0 n1 n2 I O h) as (_ & T0 & _ & T1 & _ & T2).
  assert (SQ : forall n n' v v' j r, cidx f n j -> cidx f' n' j -> nth_error [x; y; z] j = Some v -> nth_error [x'; y'; z'] j = Some v' -> comp_w k n w = v_w v -> comp_h k n h = v_h v ->
    is_psnr peak (v_w v * v_h v) (sum (v_h v) (fun y => sum (v_w v) (fun x =>
         (little_endian (sample_bytes item d (v_addr v x y)) - little_endian (sample_bytes item' d' (v_addr v' x y))) *
         (little_endian (sample_bytes item d (v_addr v x y)) - little_endian (sample_bytes item' d' (v_addr v' x y)))))) r ->
    is_psnr peak (comp_w k n w * comp_h k n h) (squares k w h (shown f w h d) (shown f' w h d') n n') r).
  { intros n n' v v' j r CN CN' NV NV' EW EH Q. unfold squares. rewrite EW, EH.
    replace (sum (v_h v) _) with (sum (v_h v) (fun y0 => sum (v_w v) (fun x0 =>
         (little_endian (sample_bytes item d (v_addr v x0 y0)) - little_endian (sample_bytes item' d' (v_addr v' x0 y0))) *
         (little_endian (sample_bytes item d (v_addr v x0 y0)) - little_endian (sample_bytes item' d' (v_addr v' x0 y0)))))); [exact Q|].
    apply sum_ext. intros yy _. apply sum_ext. intros xx _. rewrite (sample_shown f w h d item _ v n j xx yy N V CN NV), (sample_shown f' w h d' item' _ v' n' j xx yy N' V' CN' NV'). reflexivity. }
  constructor; [cbn [fst snd]|constructor; [cbn [fst snd]|constructor; [cbn [fst snd]|constructor]]].
  - apply (SQ n0 n0' x x' 0%nat r0 C0 C0' eq_refl eq_refl); [congruence|congruence|exact Q0].
  - apply (SQ n1 n1' y y' 1%nat r1 C1 C1' eq_refl eq_refl); [congruence|congruence|exact Q1].
  - apply (SQ n2 n2' z z' 2%nat r2 C2 C2' eq_refl eq_refl); [congruence|congruence|exact Q2].
Qed.
