(** Proofs about the primitive conversions. *)
From Coq Require Import Lia ZifyBool ZifyNat.
From Verif Require Import Base BaseProofs CogEnums VideoLayout LayoutProofs NpView NpViewProofs NpSpec NpGrainProofs NpConvert NpConvSpec.
Ltac Zify.zify_post_hook ::= Z.div_mod_to_equations.

(** Arithmetic. *)
Lemma land1 a : Z.land a 1 = a mod 2.
Proof. change 1 with (Z.ones 1) at 1. rewrite Z.land_ones by lia. reflexivity. Qed.

Lemma lor_bits a b : 0 <= a <= 1 -> 0 <= b <= 1 -> Z.lor a b = Z.max a b.
Proof. intros. assert (a = 0 \/ a = 1) as [-> | ->] by lia; assert (b = 0 \/ b = 1) as [-> | ->] by lia; reflexivity. Qed.

Lemma int_mean_spec bits a b : 1 <= bits -> 0 <= a < 2 ^ bits -> 0 <= b < 2 ^ bits -> int_mean bits a b = halves_up a b.
Proof.
  intros Hb Ha Hb'. unfold int_mean, halves_up. rewrite !land1. rewrite lor_bits by lia.
  assert (E : 2 ^ bits = 2 * 2 ^ (bits - 1)) by (rewrite <- Z.pow_succ_r by lia; f_equal; lia).
  assert (0 < 2 ^ (bits - 1)) by (apply Z.pow_pos_nonneg; lia).
  rewrite (Z.mod_small (a / 2 + b / 2)) by lia.
  rewrite Z.mod_small; lia.
Qed.

Lemma halves_up_range a b : Z.min a b <= halves_up a b <= Z.max a b.
Proof. unfold halves_up. lia. Qed.

Lemma halves_up_nearest a b : 2 * halves_up a b - 1 <= a + b <= 2 * halves_up a b.
Proof. unfold halves_up. lia. Qed.

Lemma halves_up_same a : halves_up a a = a.
Proof. unfold halves_up. lia. Qed.

Lemma nearest_bound n a m : 0 < n -> 0 <= a < 2 ^ m -> 0 <= nearest n a <= 2 ^ m - 1 + 1.
Proof.
  intros Hn Ha. unfold nearest. assert (0 < 2 ^ (n - 1)) by (apply Z.pow_pos_nonneg; lia). assert (0 < 2 ^ n) by (apply Z.pow_pos_nonneg; lia).
  assert (E : 2 ^ n = 2 * 2 ^ (n - 1)) by (rewrite <- Z.pow_succ_r by lia; f_equal; lia).
  split; [apply Z.div_pos; lia |]. apply Z.lt_succ_r. apply Z.div_lt_upper_bound; [lia |]. nia.
Qed.

Lemma shift_nearest n a : 0 < n -> Z.shiftr a n + Z.land (Z.shiftr a (n - 1)) 1 = nearest n a.
Proof.
  intros Hn. rewrite land1. rewrite !Z.shiftr_div_pow2 by lia. unfold nearest.
  assert (H : 0 < 2 ^ (n - 1)) by (apply Z.pow_pos_nonneg; lia).
  assert (E : 2 ^ n = 2 ^ (n - 1) * 2) by (rewrite Z.mul_comm, <- Z.pow_succ_r by lia; f_equal; lia).
  rewrite E. rewrite <- !Z.div_div by lia.
  replace (a + 2 ^ (n - 1)) with (a + 1 * 2 ^ (n - 1)) by ring. rewrite Z.div_add by lia.
  generalize (a / 2 ^ (n - 1)). intros q. lia.
Qed.

Lemma nearest_small n a bits : 1 <= n -> 0 <= a < 2 ^ bits -> 1 <= bits -> 0 <= nearest n a < 2 ^ bits.
Proof.
  intros Hn Ha Hb. unfold nearest. assert (H : 0 < 2 ^ (n - 1)) by (apply Z.pow_pos_nonneg; lia).
  assert (E : 2 ^ n = 2 * 2 ^ (n - 1)) by (rewrite <- Z.pow_succ_r by lia; f_equal; lia).
  assert (E' : 2 ^ bits = 2 * 2 ^ (bits - 1)) by (rewrite <- Z.pow_succ_r by lia; f_equal; lia).
  assert (H' : 0 < 2 ^ (bits - 1)) by (apply Z.pow_pos_nonneg; lia).
  split; [apply Z.div_pos; lia |]. apply Z.div_lt_upper_bound; [lia |]. rewrite E. nia.
Qed.

Lemma unbiased_shift_spec bits n a : 1 <= bits -> 0 < n -> 0 <= a < 2 ^ bits -> unbiased_shift bits n a = nearest n a.
Proof. intros Hb Hn Ha. unfold unbiased_shift. rewrite shift_nearest by lia. apply Z.mod_small. apply nearest_small; lia. Qed.

Lemma noisy_shift_spec bits n a r : 0 <= n -> 0 <= bits -> noisy_shift bits n a r = (a * 2 ^ n + r mod 2 ^ n) mod 2 ^ bits.
Proof.
  intros Hn Hb. unfold noisy_shift. rewrite Z.shiftl_1_l. replace (2 ^ n - 1) with (Z.ones n) by (rewrite Z.ones_equiv; lia).
  rewrite Z.land_ones by lia. rewrite Z.shiftl_mul_pow2 by lia. assert (2 ^ bits <> 0) by (apply Z.pow_nonzero; lia).
  rewrite Z.add_mod_idemp_l by lia. reflexivity.
Qed.

(** Writing one whole component after the other. *)
Definition comp_written (k : kind) (g g' : ngrain) (n : cname) (f : Z -> Z -> Z) : Prop :=
  same_shape g g' /\ has_kind g' k /\
  (forall x y, in_comp k g n x y -> sample g' n x y = f x y) /\
  (forall n' x y, In n' (names (k_model k)) -> n' <> n -> in_comp k g n' x y -> sample g' n' x y = sample g n' x y).

Lemma write_full g k n v a : has_kind g k -> In n (names (k_model k)) -> ng_comp g n = Ok v ->
  a_w a = comp_w k n (g_w g) -> a_h a = comp_h k n (g_h g) ->
  exists g', ng_write g v a = Ok g' /\ comp_written k g g' n (fun x y => a_at a x y mod 2 ^ (8 * g_item g)).
Proof.
  intros Hk Hn Ev Hw Hh. destruct (comp_view g k n Hk Hn) as (l & i & v' & _ & _ & _ & _ & Ev' & Wv & Hv).
  rewrite Ev in Ev'. injection Ev' as <-.
  destruct (write_comp g k n v v _ _ a Hk Hn Ev (part_refl v)) as (g' & E & Hs & Hk' & P1 & P2); [congruence | congruence |].
  exists g'. split; [exact E |]. split; [exact Hs |]. split; [exact Hk' |]. split.
  - intros x y [Hx Hy]. apply P1. split; lia.
  - intros n' x y Hn' Hne [Hx Hy]. apply P2; [exact Hn' | exact Hx | exact Hy | left; exact Hne].
Qed.

Lemma in_comp_shape k g g' n x y : same_shape g g' -> in_comp k g' n x y <-> in_comp k g n x y.
Proof. intros (_ & E1 & E2 & _). unfold in_comp. rewrite E1, E2. tauto. Qed.

Lemma fold_comps {B} k (nm : B -> cname) (F : cname -> Z -> Z -> Z) (step : ngrain -> B -> res ngrain) (l : list B) : forall g0,
  has_kind g0 k -> (forall b, In b l -> In (nm b) (names (k_model k))) -> NoDup (map nm l) ->
  (forall g b, has_kind g k -> same_shape g0 g -> In b l -> exists g', step g b = Ok g' /\ comp_written k g g' (nm b) (F (nm b))) ->
  exists g', res_fold step l g0 = Ok g' /\ same_shape g0 g' /\ has_kind g' k /\
    (forall n x y, In n (map nm l) -> in_comp k g0 n x y -> sample g' n x y = F n x y) /\
    (forall n x y, In n (names (k_model k)) -> ~ In n (map nm l) -> in_comp k g0 n x y -> sample g' n x y = sample g0 n x y).
Proof.
  induction l as [| b l IH]; intros g0 Hk Hn Hd Hstep.
  - exists g0. split; [reflexivity |]. split; [apply same_shape_refl |]. split; [exact Hk |]. split; [intros n x y [] | reflexivity].
  - destruct (Hstep g0 b Hk (same_shape_refl g0) (or_introl eq_refl)) as (g1 & E1 & S1 & K1 & P1 & P2).
    cbn [map] in Hd. apply NoDup_cons_iff in Hd. destruct Hd as [Hb Hd].
    destruct (IH g1 K1) as (g' & E & S & K & Q1 & Q2).
    + intros b' H. apply Hn. right. exact H.
    + exact Hd.
    + intros g b' Hg Hs Hin. apply Hstep; [exact Hg | eapply same_shape_trans; eassumption | right; exact Hin].
    + exists g'. split; [unfold res_fold in *; cbn [fold_left rbind]; rewrite E1; exact E |].
      split; [eapply same_shape_trans; eassumption |]. split; [exact K |]. split.
      * intros n x y Hin Hc. cbn [map In] in Hin. destruct Hin as [<- | Hin].
        -- rewrite Q2; [apply P1; exact Hc | apply Hn; left; reflexivity | exact Hb | apply (in_comp_shape k g0 g1 _ _ _ S1); exact Hc].
        -- apply Q1; [exact Hin | apply (in_comp_shape k g0 g1 _ _ _ S1); exact Hc].
      * intros n x y Hin Hnot Hc. cbn [map In] in Hnot.
        rewrite Q2; [apply P2; [exact Hin | intros ->; apply Hnot; left; reflexivity | exact Hc] | exact Hin | intros Hx; apply Hnot; right; exact Hx | apply (in_comp_shape k g0 g1 _ _ _ S1); exact Hc].
Qed.

Lemma NoDup_names m : NoDup (names m).
Proof. destruct m; cbn [names]; repeat constructor; cbn [In]; intuition discriminate. Qed.

Lemma same_size_shape a b c : same_size a b -> same_shape b c -> same_size a c.
Proof. intros [H1 H2] (_ & E1 & E2 & _). split; congruence. Qed.

Lemma same_item (g g' : ngrain) : same_shape g g' -> g_item g' = g_item g.
Proof. intros (_ & _ & _ & E & _). exact E. Qed.

(** Copying components that have the same size. *)
Lemma copy_step gin a g b n : has_kind gin a -> has_kind g b -> In n (names (k_model a)) -> In n (names (k_model b)) -> same_size gin g ->
  comp_w a n (g_w gin) = comp_w b n (g_w g) -> comp_h a n (g_h gin) = comp_h b n (g_h g) ->
  exists g', rbind (ng_comp g n) (fun o => rbind (ng_comp gin n) (fun i => ng_write g o (v_read (g_data gin) i))) = Ok g' /\
    comp_written b g g' n (fun x y => sample gin n x y mod 2 ^ (8 * g_item g)).
Proof.
  intros Ha Hb Hna Hnb Hs Ew Eh.
  destruct (comp_view gin a n Ha Hna) as (_ & _ & vi & _ & _ & _ & _ & Ei & Wi & Hi).
  destruct (comp_view g b n Hb Hnb) as (_ & _ & vo & _ & _ & _ & _ & Eo & Wo & Ho).
  destruct (write_full g b n vo (v_read (g_data gin) vi) Hb Hnb Eo) as (g' & E & S & K & P1 & P2); [cbn [a_w v_read]; lia | cbn [a_h v_read]; lia |].
  rewrite Eo, Ei. cbn [rbind]. exists g'. split; [exact E |]. split; [exact S |]. split; [exact K |]. split; [| exact P2].
  intros x y Hxy. rewrite P1 by exact Hxy. cbn [a_at v_read]. rewrite (sample_view gin n vi) by exact Ei. reflexivity.
Qed.

Definition prim_result (b : kind) (gout g' : ngrain) (f : cname -> Z -> Z -> Z) : Prop :=
  same_shape gout g' /\ has_kind g' b /\
  (forall n x y, In n (names (k_model b)) -> in_comp b gout n x y -> sample g' n x y = f n x y mod 2 ^ (8 * g_item gout)).

Lemma sub_eq a b n w : same_sub a b = true -> comp_w a n w = comp_w b n w /\ comp_h a n w = comp_h b n w.
Proof. unfold same_sub. intros H. assert (k_hs a = k_hs b) by lia. assert (k_vs a = k_vs b) by lia. unfold comp_w, comp_h. rewrite H0, H1. tauto. Qed.

Lemma model_eqb_eq a b : model_eqb a b = true -> a = b.
Proof. destruct a, b; try reflexivity; discriminate. Qed.

Lemma copy_all gin a gout b : has_kind gin a -> has_kind gout b -> same_size gin gout -> same_sub a b = true -> k_model a = k_model b ->
  exists g', copy_names (names (k_model b)) gin gout = Ok g' /\ prim_result b gout g' (sample gin).
Proof.
  intros Ha Hb Hs Hsub Hm. unfold copy_names.
  destruct (fold_comps b (fun n => n) (fun n x y => sample gin n x y mod 2 ^ (8 * g_item gout))
     (fun g n => rbind (ng_comp g n) (fun o => rbind (ng_comp gin n) (fun i => ng_write g o (v_read (g_data gin) i)))) (names (k_model b)) gout)
    as (g' & E & S & K & P & _).
  - exact Hb.
  - auto.
  - rewrite map_id. apply NoDup_names.
  - intros g n Hg Hsh Hn. rewrite <- (same_item _ _ Hsh).
    assert (Hs' : same_size gin g) by (eapply same_size_shape; eassumption).
    destruct (copy_step gin a g b n Ha Hg) as (g' & E & W); [rewrite Hm; exact Hn | exact Hn | exact Hs' | | | exists g'; split; [exact E | exact W]].
    + rewrite <- (proj1 Hs'). exact (proj1 (sub_eq a b n _ Hsub)).
    + rewrite <- (proj2 Hs'). exact (proj2 (sub_eq a b n _ Hsub)).
  - exists g'. split; [exact E |]. split; [exact S |]. split; [exact K |]. intros n x y Hn Hc. apply P; [rewrite map_id; exact Hn | exact Hc].
Qed.

Lemma names_chroma m n : In n (names m) -> is_chroma n = true -> m = MYuv /\ (n = CU \/ n = CV).
Proof. destruct m; cbn [names In]; intros [<- | [<- | [<- | []]]] H; cbn [is_chroma] in H; try discriminate; tauto. Qed.

(** Luma by copying, then the two chroma components. *)
Lemma yuv_two_parts gin a gout b (step : ngrain -> cname -> res ngrain) (F : cname -> Z -> Z -> Z) :
  has_kind gin a -> has_kind gout b -> same_size gin gout -> k_model a = MYuv -> k_model b = MYuv ->
  (forall g n, has_kind g b -> same_shape gout g -> In n [CU; CV] ->
     exists g', step g n = Ok g' /\ comp_written b g g' n (fun x y => F n x y mod 2 ^ (8 * g_item gout))) ->
  (forall x y, F CY x y = sample gin CY x y) ->
  exists g', rbind (copy_names [CY] gin gout) (fun g => res_fold step [CU; CV] g) = Ok g' /\ prim_result b gout g' F.
Proof.
  intros Ha Hb Hs Ma Mb Hstep HY.
  destruct (copy_step gin a gout b CY Ha Hb) as (g1 & E1 & S1 & K1 & P1 & P2);
    [rewrite Ma; left; reflexivity | rewrite Mb; left; reflexivity | exact Hs | exact (proj1 Hs) | exact (proj2 Hs) |].
  unfold copy_names, res_fold at 1. cbn [fold_left rbind]. rewrite E1. cbn [rbind].
  destruct (fold_comps b (fun n => n) (fun n x y => F n x y mod 2 ^ (8 * g_item gout)) step [CU; CV] g1) as (g' & E & S & K & Q1 & Q2).
  - exact K1.
  - rewrite Mb. intros n [<- | [<- | []]]; cbn [names In]; tauto.
  - cbn [map]. repeat constructor; cbn [In]; intuition discriminate.
  - intros g n Hg Hsh Hn. apply Hstep; [exact Hg | eapply same_shape_trans; eassumption | exact Hn].
  - exists g'. split; [exact E |]. split; [eapply same_shape_trans; eassumption |]. split; [exact K |].
    intros n x y Hn Hc. rewrite Mb in Hn. cbn [names In] in Hn. destruct Hn as [<- | Hn].
    + rewrite Q2; [rewrite HY; apply P1; exact Hc | rewrite Mb; left; reflexivity | cbn [map In]; intuition discriminate | apply (in_comp_shape b gout g1 _ _ _ S1); exact Hc].
    + apply Q1; [cbn [map In]; tauto | apply (in_comp_shape b gout g1 _ _ _ S1); exact Hc].
Qed.

(** Slices. *)
Lemma slice_len n k : 0 <= k <= 1 -> 0 <= n -> n mod 2 = 0 -> slice_count n k 2 = n / 2.
Proof. intros Hk Hn He. unfold slice_count. destruct (Z.ltb_spec k n); lia. Qed.

(** The horizontal slice functions and the vertical ones, with what they do to sizes and coordinates. *)
Definition slicing (sl : view -> Z -> Z -> view) (dw dh : Z) : Prop :=
  (forall v k, 0 <= k <= 1 -> 0 <= v_w v -> 0 <= v_h v -> v_w v mod dw = 0 -> v_h v mod dh = 0 -> v_w (sl v k 2) = v_w v / dw /\ v_h (sl v k 2) = v_h v / dh) /\
  (forall v k, 0 <= k -> part_of (sl v k 2) v (fun x => (dw - 1) * k + dw * x) (fun y => (dh - 1) * k + dh * y)).

Lemma slicing_x : slicing v_slice_x 2 1.
Proof.
  split.
  - intros v k Hk Hw Hh Ew Eh. unfold v_slice_x. cbn [v_w v_h]. rewrite slice_len by assumption. rewrite Z.div_1_r. tauto.
  - intros v k Hk. pose proof (part_slice_x v k 2 Hk ltac:(lia)) as (P1 & P2 & P3). unfold part_of. split.
    + intros x y H. replace ((2 - 1) * k + 2 * x) with (k + 2 * x) by ring. replace ((1 - 1) * k + 1 * y) with y by ring. exact (P1 x y H).
    + split; intros; lia.
Qed.

Lemma slicing_y : slicing v_slice_y 1 2.
Proof.
  split.
  - intros v k Hk Hw Hh Ew Eh. unfold v_slice_y. cbn [v_w v_h]. rewrite slice_len by assumption. rewrite Z.div_1_r. tauto.
  - intros v k Hk. pose proof (part_slice_y v k 2 Hk ltac:(lia)) as (P1 & P2 & P3). unfold part_of. split.
    + intros x y H. replace ((2 - 1) * k + 2 * y) with (k + 2 * y) by ring. replace ((1 - 1) * k + 1 * x) with x by ring. exact (P1 x y H).
    + split; intros; lia.
Qed.

Lemma bcast_same n : bcast n n = Ok n.
Proof. unfold bcast. rewrite Z.eqb_refl. reflexivity. Qed.

Lemma bidx_lt n x : 0 <= x < n -> bidx n x = x.
Proof. unfold bidx. intros H. destruct (n =? 1) eqn:E; lia. Qed.

Lemma kind_pos g k : has_kind g k -> 1 <= g_item g /\ 0 <= g_w g /\ 0 <= g_h g.
Proof. intros H. destruct (grain_views g k H) as (_ & _ & _ & _ & Hi & _). destruct H as [_ (W & Hh & _)]. lia. Qed.

Lemma kind_subs g k : has_kind g k -> 0 < k_hs k /\ 0 < k_vs k.
Proof. intros [H _]. unfold kinds in H. cbn [In] in H. repeat (destruct H as [H | H]; [injection H as _ <-; cbn; lia |]). destruct H. Qed.

Lemma mean_step sl dw dh gin a g b n : slicing sl dw dh -> 0 < dw -> 0 < dh -> has_kind gin a -> has_kind g b -> In n (names (k_model a)) -> In n (names (k_model b)) ->
  comp_w a n (g_w gin) = dw * comp_w b n (g_w g) -> comp_h a n (g_h gin) = dh * comp_h b n (g_h g) ->
  exists g', mean_name sl gin g n = Ok g' /\
    comp_written b g g' n (fun x y => halves_up (sample gin n (dw * x) (dh * y)) (sample gin n (dw * x + (dw - 1)) (dh * y + (dh - 1))) mod 2 ^ (8 * g_item g)).
Proof.
  intros [Sl1 Sl2] Hdw Hdh Ha Hb Hna Hnb Ew Eh. destruct (kind_pos gin a Ha) as (Ia & Wa & Ha0).
  destruct (comp_view gin a n Ha Hna) as (_ & _ & vi & _ & _ & _ & _ & Ei & Wi & Hi).
  destruct (comp_view g b n Hb Hnb) as (_ & _ & vo & _ & _ & _ & _ & Eo & Wo & Ho).
  assert (W0 : 0 <= comp_w b n (g_w g) /\ 0 <= comp_h b n (g_h g)).
  { destruct (kind_pos g b Hb) as (_ & W' & H'). destruct (kind_subs g b Hb). unfold comp_w, comp_h. destruct n; split; try assumption; apply Z.div_pos; lia. }
  assert (M : forall k, 0 <= k <= 1 -> v_w (sl vi k 2) = v_w vo /\ v_h (sl vi k 2) = v_h vo).
  { intros k Hk. destruct (Sl1 vi k Hk) as [E1 E2]; [rewrite Wi, Ew; apply Z.mul_nonneg_nonneg; lia | rewrite Hi, Eh; apply Z.mul_nonneg_nonneg; lia | rewrite Wi, Ew, Z.mul_comm; apply Z.mod_mul; lia | rewrite Hi, Eh, Z.mul_comm; apply Z.mod_mul; lia |].
    rewrite E1, E2, Wi, Hi, Ew, Eh, Wo, Ho. rewrite (Z.mul_comm dw), (Z.mul_comm dh). rewrite (Z.div_mul _ dw) by lia. rewrite (Z.div_mul _ dh) by lia. tauto. }
  unfold mean_name. rewrite Ei. cbn [rbind]. unfold a_map2. cbn [a_w a_h v_read].
  destruct (M 0 ltac:(lia)) as [M1 M2]. destruct (M 1 ltac:(lia)) as [M3 M4]. rewrite M1, M2, M3, M4, !bcast_same. cbn [rbind]. rewrite Eo. cbn [rbind].
  set (arr := mkArr _ _ _).
  destruct (write_full g b n vo arr Hb Hnb Eo) as (g' & E & S & K & P1 & P2); [exact Wo | exact Ho |].
  exists g'. split; [exact E |]. split; [exact S |]. split; [exact K |]. split; [| exact P2].
  intros x y Hxy. rewrite P1 by exact Hxy. unfold arr. cbn [a_at v_read]. destruct Hxy as [Hx Hy].
  rewrite !bidx_lt by lia. rewrite !(sample_view gin n vi) by exact Ei.
  assert (V0 : in_view (sl vi 0 2) x y) by (unfold in_view; rewrite M1, M2; lia).
  assert (V1 : in_view (sl vi 1 2) x y) by (unfold in_view; rewrite M3, M4; lia).
  destruct (Sl2 vi 0 ltac:(lia)) as (Q0 & _). destruct (Sl2 vi 1 ltac:(lia)) as (Q1 & _).
  destruct (Q0 x y V0) as [I0 A0]. destruct (Q1 x y V1) as [I1 A1]. rewrite A0, A1.
  replace ((dw - 1) * 0 + dw * x) with (dw * x) in * by ring. replace ((dh - 1) * 0 + dh * y) with (dh * y) in * by ring.
  replace ((dw - 1) * 1 + dw * x) with (dw * x + (dw - 1)) in * by ring. replace ((dh - 1) * 1 + dh * y) with (dh * y + (dh - 1)) in * by ring.
  f_equal. unfold ng_bits. apply int_mean_spec; [lia | |].
  - rewrite <- (sample_view gin n vi) by exact Ei. destruct I0 as [I01 I02]. apply (sample_range gin a); [exact Ha | exact Hna | lia | lia].
  - rewrite <- (sample_view gin n vi) by exact Ei. destruct I1 as [I01 I02]. apply (sample_range gin a); [exact Ha | exact Hna | lia | lia].
Qed.

Lemma dup_step sl dw dh gin a g b n : slicing sl dw dh -> (dw = 2 /\ dh = 1 \/ dw = 1 /\ dh = 2) -> has_kind gin a -> has_kind g b -> In n (names (k_model a)) -> In n (names (k_model b)) ->
  comp_w b n (g_w g) = dw * comp_w a n (g_w gin) -> comp_h b n (g_h g) = dh * comp_h a n (g_h gin) ->
  exists g', dup_name sl gin g n = Ok g' /\
    comp_written b g g' n (fun x y => sample gin n (x / dw) (y / dh) mod 2 ^ (8 * g_item g)).
Proof.
  intros [Sl1 Sl2] Hd Ha Hb Hna Hnb Ew Eh. assert (Hdw : 0 < dw) by lia. assert (Hdh : 0 < dh) by lia.
  destruct (comp_view gin a n Ha Hna) as (_ & _ & vi & _ & _ & _ & _ & Ei & Wi & Hi).
  destruct (comp_view g b n Hb Hnb) as (_ & _ & vo & _ & _ & _ & _ & Eo & Wo & Ho).
  assert (W0 : 0 <= comp_w a n (g_w gin) /\ 0 <= comp_h a n (g_h gin)).
  { destruct (kind_pos gin a Ha) as (_ & W' & H'). destruct (kind_subs gin a Ha). unfold comp_w, comp_h. destruct n; split; try assumption; apply Z.div_pos; lia. }
  assert (M : forall k, 0 <= k <= 1 -> v_w (sl vo k 2) = v_w vi /\ v_h (sl vo k 2) = v_h vi).
  { intros k Hk. destruct (Sl1 vo k Hk) as [E1 E2]; [rewrite Wo, Ew; apply Z.mul_nonneg_nonneg; lia | rewrite Ho, Eh; apply Z.mul_nonneg_nonneg; lia | rewrite Wo, Ew, Z.mul_comm; apply Z.mod_mul; lia | rewrite Ho, Eh, Z.mul_comm; apply Z.mod_mul; lia |].
    rewrite E1, E2, Wo, Ho, Ew, Eh, Wi, Hi. rewrite (Z.mul_comm dw), (Z.mul_comm dh). rewrite (Z.div_mul _ dw) by lia. rewrite (Z.div_mul _ dh) by lia. tauto. }
  unfold dup_name, res_fold. cbn [fold_left rbind]. rewrite Eo, Ei. cbn [rbind].
  destruct (M 0 ltac:(lia)) as [M1 M2]. destruct (M 1 ltac:(lia)) as [M3 M4].
  pose proof (Sl2 vo 0 ltac:(lia)) as Pt0. pose proof (Sl2 vo 1 ltac:(lia)) as Pt1.
  destruct (write_comp g b n vo _ _ _ (v_read (g_data gin) vi) Hb Hnb Eo Pt0) as (g1 & E1 & S1 & K1 & P1 & P2); [cbn [a_w v_read]; lia | cbn [a_h v_read]; lia |].
  rewrite E1. cbn [rbind]. rewrite (same_shape_comp g g1 n S1), Eo. cbn [rbind].
  assert (Eo1 : ng_comp g1 n = Ok vo) by (rewrite (same_shape_comp g g1 n S1); exact Eo).
  destruct (write_comp g1 b n vo _ _ _ (v_read (g_data gin) vi) K1 Hnb Eo1 Pt1) as (g2 & E2 & S2 & K2 & R1 & R2); [cbn [a_w v_read]; lia | cbn [a_h v_read]; lia |].
  rewrite E2. exists g2. split; [reflexivity |]. split; [eapply same_shape_trans; eassumption |]. split; [exact K2 |].
  pose proof S1 as (_ & SW & SH & SI & _). unfold in_comp.
  assert (Hrd : forall x y, a_at (v_read (g_data gin) vi) x y = sample gin n x y) by (intros; cbn [a_at v_read]; rewrite (sample_view gin n vi) by exact Ei; reflexivity).
  assert (Iv : forall k x y, 0 <= k <= 1 -> in_view (sl vo k 2) x y <-> 0 <= x < comp_w a n (g_w gin) /\ 0 <= y < comp_h a n (g_h gin)).
  { intros k x y Hk. unfold in_view. destruct (M k Hk) as [-> ->]. rewrite Wi, Hi. tauto. }
  split.
  - intros x y [Hx Hy].
    assert (Hcase : (exists x' y', in_view (sl vo 1 2) x' y' /\ x = (dw - 1) * 1 + dw * x' /\ y = (dh - 1) * 1 + dh * y') \/
                    (in_view (sl vo 0 2) (x / dw) (y / dh) /\ x = (dw - 1) * 0 + dw * (x / dw) /\ y = (dh - 1) * 0 + dh * (y / dh) /\
                     forall x' y', in_view (sl vo 1 2) x' y' -> x <> (dw - 1) * 1 + dw * x' \/ y <> (dh - 1) * 1 + dh * y')).
    { rewrite (Iv 0) by lia. destruct Hd as [[-> ->] | [-> ->]].
      - destruct (Z.eq_dec (x mod 2) 1).
        + left. exists (x / 2), y. rewrite (Iv 1) by lia. clear - Hx Hy Ew Eh e. lia.
        + right. rewrite Z.div_1_r. split; [clear - Hx Hy Ew Eh; lia |]. split; [clear - n0; lia |]. split; [clear; lia |]. intros x' y' _. left. clear - n0. lia.
      - destruct (Z.eq_dec (y mod 2) 1).
        + left. exists x, (y / 2). rewrite (Iv 1) by lia. clear - Hx Hy Ew Eh e. lia.
        + right. rewrite Z.div_1_r. split; [clear - Hx Hy Ew Eh; lia |]. split; [clear; lia |]. split; [clear - n0; lia |]. intros x' y' _. right. clear - n0. lia. }
    destruct Hcase as [(x' & y' & V & -> & ->) | (V & Ex & Ey & Hno)].
    + rewrite R1 by exact V. rewrite SI, Hrd. f_equal. destruct Hd as [[-> ->] | [-> ->]]; f_equal; clear; lia.
    + rewrite R2; [| exact Hnb | rewrite SW; exact Hx | rewrite SH; exact Hy | right; exact Hno]. pose proof (P1 _ _ V) as E3. rewrite <- Ex, <- Ey, Hrd in E3. exact E3.
  - intros n' x y Hn' Hne [Hx Hy]. rewrite R2; [| exact Hn' | rewrite SW; exact Hx | rewrite SH; exact Hy | left; exact Hne]. apply P2; [exact Hn' | exact Hx | exact Hy | left; exact Hne].
Qed.

Lemma chroma_in n : In n [CU; CV] -> In n (names MYuv).
Proof. intros [<- | [<- | []]]; cbn [names In]; tauto. Qed.

Ltac chroma_sizes := match goal with |- forall n, In n [CU; CV] -> _ => intros n [<- | [<- | []]] end; cbn [comp_w comp_h]; split; lia.

Lemma mean_result sl dw dh gin a gout b : slicing sl dw dh -> 0 < dw -> 0 < dh -> has_kind gin a -> has_kind gout b -> same_size gin gout ->
  k_model a = MYuv -> k_model b = MYuv ->
  (forall n, In n [CU; CV] -> comp_w a n (g_w gin) = dw * comp_w b n (g_w gout) /\ comp_h a n (g_h gin) = dh * comp_h b n (g_h gout)) ->
  exists g', mean_conv sl gin gout = Ok g' /\
    prim_result b gout g' (fun n x y => if is_chroma n then halves_up (sample gin n (dw * x) (dh * y)) (sample gin n (dw * x + (dw - 1)) (dh * y + (dh - 1))) else sample gin n x y).
Proof.
  intros Hsl Hdw Hdh Ha Hb Hs Ma Mb Hc. unfold mean_conv. eapply yuv_two_parts; try eassumption; [| reflexivity].
  intros g n Hg Hsh Hn. destruct (Hc n Hn) as [C1 C2]. pose proof Hsh as (_ & SW & SH & SI & _).
  destruct (mean_step sl dw dh gin a g b n Hsl Hdw Hdh Ha Hg) as (g' & E & W); [rewrite Ma; apply chroma_in; exact Hn | rewrite Mb; apply chroma_in; exact Hn | rewrite SW; exact C1 | rewrite SH; exact C2 |].
  exists g'. split; [exact E |]. rewrite SI in W. assert (is_chroma n = true) as -> by (destruct Hn as [<- | [<- | []]]; reflexivity). exact W.
Qed.

Lemma dup_result sl dw dh gin a gout b : slicing sl dw dh -> (dw = 2 /\ dh = 1 \/ dw = 1 /\ dh = 2) -> has_kind gin a -> has_kind gout b -> same_size gin gout ->
  k_model a = MYuv -> k_model b = MYuv ->
  (forall n, In n [CU; CV] -> comp_w b n (g_w gout) = dw * comp_w a n (g_w gin) /\ comp_h b n (g_h gout) = dh * comp_h a n (g_h gin)) ->
  exists g', dup_conv sl gin gout = Ok g' /\
    prim_result b gout g' (fun n x y => if is_chroma n then sample gin n (x / dw) (y / dh) else sample gin n x y).
Proof.
  intros Hsl Hd Ha Hb Hs Ma Mb Hc. unfold dup_conv. eapply yuv_two_parts; try eassumption; [| reflexivity].
  intros g n Hg Hsh Hn. destruct (Hc n Hn) as [C1 C2]. pose proof Hsh as (_ & SW & SH & SI & _).
  destruct (dup_step sl dw dh gin a g b n Hsl Hd Ha Hg) as (g' & E & W); [rewrite Ma; apply chroma_in; exact Hn | rewrite Mb; apply chroma_in; exact Hn | rewrite SW; exact C1 | rewrite SH; exact C2 |].
  exists g'. split; [exact E |]. rewrite SI in W. assert (is_chroma n = true) as -> by (destruct Hn as [<- | [<- | []]]; reflexivity). exact W.
Qed.

(** Bit depth conversions: an element-wise function of the component. *)
Definition by_model (m : model) : ngrain -> nat -> res view := match m with MYuv => by_number | MRgb => by_rgb_name end.
Definition name_no (m : model) (i : nat) : cname := nth i (names m) CY.

Lemma pick_view g k i : has_kind g k -> (i < 3)%nat -> by_model (k_model k) g i = ng_comp g (name_no (k_model k) i).
Proof.
  intros [Hin _] Hi. destruct (kind_fact _ _ Hin) as (_ & _ & _ & _ & _ & Hm & _). unfold name_no.
  destruct (k_model k); cbn [by_model names].
  - unfold by_number, ng_comp. rewrite Hm. destruct i as [| [| [| i]]]; [reflexivity | reflexivity | reflexivity | lia].
  - unfold by_rgb_name. destruct i as [| [| [| i]]]; [reflexivity | reflexivity | reflexivity | lia].
Qed.

Lemma name_no_in m i : (i < 3)%nat -> In (name_no m i) (names m).
Proof. intros H. apply nth_In. destruct m; exact H. Qed.

Lemma name_no_NoDup m : NoDup (map (name_no m) [0%nat; 1%nat; 2%nat]).
Proof. destruct m; [exact (NoDup_names MYuv) | exact (NoDup_names MRgb)]. Qed.

Lemma name_no_all m n : In n (names m) -> In n (map (name_no m) [0%nat; 1%nat; 2%nat]).
Proof. destruct m; auto. Qed.

Lemma depth_result gin a gout b (F : nat -> Z -> Z -> Z -> Z) (G : cname -> Z -> Z -> Z -> Z) :
  has_kind gin a -> has_kind gout b -> same_size gin gout -> k_model a = k_model b -> same_sub a b = true ->
  (forall i x y s, (i < 3)%nat -> 0 <= s < 2 ^ (8 * g_item gin) -> F i x y s mod 2 ^ (8 * g_item gout) = G (name_no (k_model b) i) x y s mod 2 ^ (8 * g_item gout)) ->
  exists g', res_fold (fun g i => rbind (by_model (k_model b) g i) (fun ov => rbind (by_model (k_model b) gin i) (fun s =>
      let a := v_read (g_data gin) s in ng_write g ov (mkArr (a_w a) (a_h a) (fun x y => F i x y (a_at a x y)))))) [0%nat; 1%nat; 2%nat] gout = Ok g' /\
    prim_result b gout g' (fun n x y => G n x y (sample gin n x y)).
Proof.
  intros Ha Hb Hs Hm Hsub HFG.
  destruct (fold_comps b (name_no (k_model b)) (fun n x y => G n x y (sample gin n x y) mod 2 ^ (8 * g_item gout))
     (fun g i => rbind (by_model (k_model b) g i) (fun ov => rbind (by_model (k_model b) gin i) (fun s =>
      let a := v_read (g_data gin) s in ng_write g ov (mkArr (a_w a) (a_h a) (fun x y => F i x y (a_at a x y)))))) [0%nat; 1%nat; 2%nat] gout)
    as (g' & E & S & K & P & _).
  - exact Hb.
  - intros i Hi. apply name_no_in. cbn [In] in Hi. lia.
  - apply name_no_NoDup.
  - intros g i Hg Hsh Hi. assert (Hi3 : (i < 3)%nat) by (cbn [In] in Hi; lia).
    pose proof (name_no_in (k_model b) i Hi3) as Hn. pose proof Hsh as (_ & SW & SH & SI & _).
    assert (Hs' : same_size gin g) by (eapply same_size_shape; eassumption).
    assert (Hna : In (name_no (k_model b) i) (names (k_model a))) by (rewrite Hm; exact Hn).
    destruct (comp_view gin a _ Ha Hna) as (_ & _ & vi & _ & _ & _ & _ & Ei & Wi & Hi').
    destruct (comp_view g b _ Hg Hn) as (_ & _ & vo & _ & _ & _ & _ & Eo & Wo & Ho).
    rewrite (pick_view g b i Hg Hi3), Eo. cbn [rbind]. pose proof (pick_view gin a i Ha Hi3) as Epa. rewrite Hm in Epa. rewrite Epa, Ei. cbn [rbind].
    set (arr := mkArr _ _ _).
    destruct (sub_eq a b (name_no (k_model b) i) (g_w gin) Hsub) as [SE1 _]. destruct (sub_eq a b (name_no (k_model b) i) (g_h gin) Hsub) as [_ SE2].
    destruct Hs' as [HW HH].
    destruct (write_full g b _ vo arr Hg Hn Eo) as (g' & E & S & K & P1 & P2); [cbn [a_w v_read arr]; congruence | cbn [a_h v_read arr]; congruence |].
    exists g'. split; [exact E |]. split; [exact S |]. split; [exact K |]. split; [| exact P2].
    intros x y Hxy. rewrite P1 by exact Hxy. cbn [a_at arr v_read]. rewrite SI. rewrite (sample_view gin _ vi) by exact Ei. apply HFG; [exact Hi3 |].
    rewrite <- (sample_view gin _ vi) by exact Ei. destruct Hxy as [Hx Hy]. apply (sample_range gin a); [exact Ha | exact Hna | rewrite SE1, HW; exact Hx | rewrite SE2, HH; exact Hy].
  - exists g'. split; [exact E |]. split; [exact S |]. split; [exact K |]. intros n x y Hn Hc. apply P; [apply name_no_all; exact Hn | exact Hc].
Qed.

(** Colour space conversions. *)
Definition matrix_in (m : model) (g : ngrain) : res (arr * arr * arr) :=
  read_names g (name_no m 0) (name_no m 1) (name_no m 2).

Lemma same_444 k n w h : same_sub k (yuv444 0) = true -> comp_w k n w = w /\ comp_h k n h = h.
Proof.
  unfold same_sub. cbn [k_hs k_vs yuv444]. intros H. assert (k_hs k = 1) by lia. assert (k_vs k = 1) by lia. unfold comp_w, comp_h. rewrite H0, H1, !Z.div_1_r.
  destruct n; tauto.
Qed.

Lemma matrix_result o bd gin a gout b (nos : list (Z * cname)) (G : cname -> Z) :
  has_kind gin a -> has_kind gout b -> same_size gin gout -> same_sub a (yuv444 0) = true -> same_sub b (yuv444 0) = true -> 0 <= bd ->
  map snd nos = names (k_model b) -> (forall e, In e nos -> fst e = G (snd e)) ->
  exists g', rbind (matrix_in (k_model a) gin) (fun ins => res_fold (matrix_name o bd ins) nos gout) = Ok g' /\
    prim_result b gout g' (fun n x y => Z.min (Z.max (o_matrix o (G n)
       (sample gin (name_no (k_model a) 0) x y) (sample gin (name_no (k_model a) 1) x y) (sample gin (name_no (k_model a) 2) x y)) 0) (2 ^ bd)).
Proof.
  intros Ha Hb Hs Sa Sb Hbd Hnos HG.
  set (n0 := name_no (k_model a) 0). set (n1 := name_no (k_model a) 1). set (n2 := name_no (k_model a) 2).
  assert (H0 : In n0 (names (k_model a))) by (apply name_no_in; lia). assert (H1 : In n1 (names (k_model a))) by (apply name_no_in; lia).
  assert (H2 : In n2 (names (k_model a))) by (apply name_no_in; lia).
  destruct (comp_view gin a n0 Ha H0) as (_ & _ & v0 & _ & _ & _ & _ & E0 & W0 & Hh0).
  destruct (comp_view gin a n1 Ha H1) as (_ & _ & v1 & _ & _ & _ & _ & E1 & W1 & Hh1).
  destruct (comp_view gin a n2 Ha H2) as (_ & _ & v2 & _ & _ & _ & _ & E2 & W2 & Hh2).
  destruct (same_444 a n0 (g_w gin) (g_h gin) Sa) as [Q1 Q2]. rewrite Q1 in W0. rewrite Q2 in Hh0.
  destruct (same_444 a n1 (g_w gin) (g_h gin) Sa) as [Q3 Q4]. rewrite Q3 in W1. rewrite Q4 in Hh1.
  destruct (same_444 a n2 (g_w gin) (g_h gin) Sa) as [Q5 Q6]. rewrite Q5 in W2. rewrite Q6 in Hh2.
  unfold matrix_in, read_names. fold n0 n1 n2. rewrite E0, E1, E2. cbn [rbind].
  destruct (fold_comps b snd (fun n x y => Z.min (Z.max (o_matrix o (G n) (sample gin n0 x y) (sample gin n1 x y) (sample gin n2 x y)) 0) (2 ^ bd) mod 2 ^ (8 * g_item gout))
     (matrix_name o bd (v_read (g_data gin) v0, v_read (g_data gin) v1, v_read (g_data gin) v2)) nos gout) as (g' & E & S & K & P & _).
  - exact Hb.
  - intros e He. rewrite <- Hnos. apply in_map. exact He.
  - rewrite Hnos. apply NoDup_names.
  - intros g e Hg Hsh He. assert (Hn : In (snd e) (names (k_model b))) by (rewrite <- Hnos; apply in_map; exact He).
    pose proof Hsh as (_ & SW & SH & SI & _).
    assert (Hs' : same_size gin g) by (eapply same_size_shape; eassumption). destruct Hs' as [HW HH].
    destruct (comp_view g b (snd e) Hg Hn) as (_ & _ & vo & _ & _ & _ & _ & Eo & Wo & Ho).
    destruct (same_444 b (snd e) (g_w g) (g_h g) Sb) as [Q7 Q8]. rewrite Q7 in Wo. rewrite Q8 in Ho.
    unfold matrix_name. rewrite Eo. cbn [rbind a_w a_h v_read]. rewrite W0, W1, W2, Hh0, Hh1, Hh2. repeat (rewrite bcast_same; cbn [rbind]).
    rewrite Wo, Ho, HW, HH, !Z.eqb_refl. cbn [andb]. set (arr := mkArr _ _ _).
    destruct (write_full g b (snd e) vo arr Hg Hn Eo) as (g' & E & S & K & P1 & P2); [symmetry; exact Q7 | symmetry; exact Q8 |].
    exists g'. split; [exact E |]. split; [exact S |]. split; [exact K |]. split; [| exact P2].
    intros x y Hxy. rewrite P1 by exact Hxy. destruct Hxy as [Hx Hy]. rewrite Q7 in Hx. rewrite Q8 in Hy. rewrite SI. f_equal.
    cbn [a_at arr v_read]. rewrite !bidx_lt by lia. unfold clip_to. rewrite Z.shiftl_1_l. rewrite (HG e He).
    rewrite (sample_view gin n0 v0), (sample_view gin n1 v1), (sample_view gin n2 v2) by assumption. reflexivity.
  - exists g'. split; [exact E |]. split; [exact S |]. split; [exact K |]. intros n x y Hn Hc. apply P; [rewrite Hnos; exact Hn | exact Hc].
Qed.

Lemma kind_depth g k : has_kind g k -> ACTIVE_BITS (g_fmt g) = k_depth k /\ 1 <= k_depth k <= 8 * g_item g.
Proof.
  intros H. destruct (grain_views g k H) as (l & _ & _ & Hit & Hi & Hb).
  destruct H as [H _]. destruct (kind_fact _ _ H) as (_ & D2 & _ & _ & D5 & _). split; [exact D2 | lia].
Qed.

Lemma prim_ext b gout g' f f' : prim_result b gout g' f -> (forall n x y, f n x y = f' n x y) -> prim_result b gout g' f'.
Proof. intros (S & K & P) H. split; [exact S |]. split; [exact K |]. intros n x y Hn Hc. rewrite <- H. apply P; assumption. Qed.

Lemma up_value bits n s r r' : 0 <= n -> 0 <= bits -> r = r' -> noisy_shift bits n (s mod 2 ^ bits) r mod 2 ^ bits = (s * 2 ^ n + r' mod 2 ^ n) mod 2 ^ bits.
Proof.
  intros Hn Hb <-. rewrite noisy_shift_spec by assumption. assert (2 ^ bits <> 0) by (apply Z.pow_nonzero; lia). rewrite Z.mod_mod by lia.
  rewrite <- (Z.add_mod_idemp_l (_ * _)) by lia. rewrite Z.mul_mod_idemp_l by lia. rewrite Z.add_mod_idemp_l by lia. reflexivity.
Qed.

Lemma sub_is a b : same_sub a b = true -> k_hs a = k_hs b /\ k_vs a = k_vs b.
Proof. unfold same_sub. intros H. apply andb_true_iff in H. destruct H as [H1 H2]. apply Z.eqb_eq in H1. apply Z.eqb_eq in H2. tauto. Qed.

(** The primitives. *)
Lemma prim_correct fuel t o k gin a gout b : applies k a b = true -> has_kind gin a -> has_kind gout b -> same_size gin gout ->
  even_size a (g_w gin) (g_h gin) -> even_size b (g_w gin) (g_h gin) ->
  exists g', run_conv (S fuel) t o k gin gout = Ok g' /\ prim_result b gout g' (meaning k o (g_fmt gin) a b (sample gin)).
Proof.
  intros Hap Ha Hb Hs Ea Eb. pose proof Hs as [HW HH]. destruct (kind_depth gin a Ha) as [Da Da']. destruct (kind_depth gout b Hb) as [Db Db'].
  destruct (kind_pos gin a Ha) as (Ia & Wa & Hha). destruct (kind_pos gout b Hb) as (Ib & _ & _).
  destruct k; cbn [applies] in Hap; try discriminate; repeat (apply andb_true_iff in Hap; destruct Hap as [Hap ?]); cbn [run_conv meaning];
    repeat match goal with H : model_eqb _ _ = true |- _ => apply model_eqb_eq in H end.
  - unfold copy_yuv. change [CY; CU; CV] with (names MYuv). replace MYuv with (k_model b). apply (copy_all gin a gout b); try assumption. congruence.
  - unfold copy_rgb. change [CR; CG; CB] with (names MRgb). replace MRgb with (k_model b). apply (copy_all gin a gout b); try assumption. congruence.
  - destruct (mean_result v_slice_x 2 1 gin a gout b) as (g' & E & P); try assumption; try (clear; lia); [exact slicing_x | | exists g'; split; [exact E |]].
    + match goal with H : same_sub a _ = true |- _ => destruct (sub_is _ _ H) as [A1 A2] end.
      match goal with H : same_sub b _ = true |- _ => destruct (sub_is _ _ H) as [B1 B2] end.
      cbn [k_hs k_vs yuv444 yuv422 yuv420] in A1, A2, B1, B2. unfold even_size in Ea, Eb. rewrite A1, A2 in Ea. rewrite B1, B2 in Eb.
      intros n [<- | [<- | []]]; cbn [comp_w comp_h]; rewrite A1, A2, B1, B2, <- HW, <- HH, !Z.div_1_r; clear - Ea Eb; lia.
    + eapply prim_ext; [exact P |]. intros n x y. cbn beta. cbn [meaning]. destruct (is_chroma n); [| reflexivity].
      replace (1 * y + (1 - 1)) with y by ring. replace (1 * y) with y by ring. reflexivity.
  - destruct (mean_result v_slice_y 1 2 gin a gout b) as (g' & E & P); try assumption; try (clear; lia); [exact slicing_y | | exists g'; split; [exact E |]].
    + match goal with H : same_sub a _ = true |- _ => destruct (sub_is _ _ H) as [A1 A2] end.
      match goal with H : same_sub b _ = true |- _ => destruct (sub_is _ _ H) as [B1 B2] end.
      cbn [k_hs k_vs yuv444 yuv422 yuv420] in A1, A2, B1, B2. unfold even_size in Ea, Eb. rewrite A1, A2 in Ea. rewrite B1, B2 in Eb.
      intros n [<- | [<- | []]]; cbn [comp_w comp_h]; rewrite A1, A2, B1, B2, <- HW, <- HH, !Z.div_1_r; clear - Ea Eb; lia.
    + eapply prim_ext; [exact P |]. intros n x y. cbn beta. cbn [meaning]. destruct (is_chroma n); [| reflexivity].
      replace (1 * x + (1 - 1)) with x by ring. replace (1 * x) with x by ring. reflexivity.
  - destruct (dup_result v_slice_x 2 1 gin a gout b) as (g' & E & P); try assumption; try (clear; lia); [exact slicing_x | | exists g'; split; [exact E |]].
    + match goal with H : same_sub a _ = true |- _ => destruct (sub_is _ _ H) as [A1 A2] end.
      match goal with H : same_sub b _ = true |- _ => destruct (sub_is _ _ H) as [B1 B2] end.
      cbn [k_hs k_vs yuv444 yuv422 yuv420] in A1, A2, B1, B2. unfold even_size in Ea, Eb. rewrite A1, A2 in Ea. rewrite B1, B2 in Eb.
      intros n [<- | [<- | []]]; cbn [comp_w comp_h]; rewrite A1, A2, B1, B2, <- HW, <- HH, !Z.div_1_r; clear - Ea Eb; lia.
    + eapply prim_ext; [exact P |]. intros n x y. cbn beta. cbn [meaning]. rewrite Z.div_1_r. reflexivity.
  - destruct (dup_result v_slice_y 1 2 gin a gout b) as (g' & E & P); try assumption; try (clear; lia); [exact slicing_y | | exists g'; split; [exact E |]].
    + match goal with H : same_sub a _ = true |- _ => destruct (sub_is _ _ H) as [A1 A2] end.
      match goal with H : same_sub b _ = true |- _ => destruct (sub_is _ _ H) as [B1 B2] end.
      cbn [k_hs k_vs yuv444 yuv422 yuv420] in A1, A2, B1, B2. unfold even_size in Ea, Eb. rewrite A1, A2 in Ea. rewrite B1, B2 in Eb.
      intros n [<- | [<- | []]]; cbn [comp_w comp_h]; rewrite A1, A2, B1, B2, <- HW, <- HH, !Z.div_1_r; clear - Ea Eb; lia.
    + eapply prim_ext; [exact P |]. intros n x y. cbn beta. cbn [meaning]. rewrite Z.div_1_r. reflexivity.
  - unfold down_conv. replace by_number with (by_model (k_model b)) by (replace (k_model b) with MYuv; reflexivity).
    apply (depth_result gin a gout b (fun _ _ _ s => unbiased_shift (ng_bits gin) (ACTIVE_BITS (g_fmt gin) - ACTIVE_BITS (g_fmt gout)) s)
      (fun _ _ _ s => nearest (k_depth a - k_depth b) s)); try assumption; [congruence |].
    intros i x y s _ Hsr. rewrite Da, Db. rewrite unbiased_shift_spec; [reflexivity | unfold ng_bits; clear - Ia; lia | match goal with H : (_ <? _) = true |- _ => clear - H; lia end | exact Hsr].
  - unfold down_conv. replace by_rgb_name with (by_model (k_model b)) by (replace (k_model b) with MRgb; reflexivity).
    apply (depth_result gin a gout b (fun _ _ _ s => unbiased_shift (ng_bits gin) (ACTIVE_BITS (g_fmt gin) - ACTIVE_BITS (g_fmt gout)) s)
      (fun _ _ _ s => nearest (k_depth a - k_depth b) s)); try assumption; [congruence |].
    intros i x y s _ Hsr. rewrite Da, Db. rewrite unbiased_shift_spec; [reflexivity | unfold ng_bits; clear - Ia; lia | match goal with H : (_ <? _) = true |- _ => clear - H; lia end | exact Hsr].
  - unfold up_conv. replace by_number with (by_model (k_model b)) by (replace (k_model b) with MYuv; reflexivity).
    apply (depth_result gin a gout b (fun i x y s => noisy_shift (ng_bits gout) (ACTIVE_BITS (g_fmt gout) - ACTIVE_BITS (g_fmt gin)) (s mod 2 ^ ng_bits gout) (o_noise o (g_fmt gin) (Z.of_nat i) x y))
      (fun n x y s => s * 2 ^ (k_depth b - k_depth a) + o_noise o (g_fmt gin) (match n with CY | CR => 0 | CU | CG => 1 | CV | CB => 2 end) x y mod 2 ^ (k_depth b - k_depth a)));
      try assumption; [congruence |].
    intros i x y s Hi Hsr. rewrite Da, Db. apply up_value; [match goal with H : (_ <? _) = true |- _ => clear - H; lia end | unfold ng_bits; clear - Ib; lia |].
    replace (k_model b) with MYuv. destruct i as [| [| [| i]]]; [reflexivity | reflexivity | reflexivity | lia].
  - unfold up_conv. replace by_rgb_name with (by_model (k_model b)) by (replace (k_model b) with MRgb; reflexivity).
    apply (depth_result gin a gout b (fun i x y s => noisy_shift (ng_bits gout) (ACTIVE_BITS (g_fmt gout) - ACTIVE_BITS (g_fmt gin)) (s mod 2 ^ ng_bits gout) (o_noise o (g_fmt gin) (Z.of_nat i) x y))
      (fun n x y s => s * 2 ^ (k_depth b - k_depth a) + o_noise o (g_fmt gin) (match n with CY | CR => 0 | CU | CG => 1 | CV | CB => 2 end) x y mod 2 ^ (k_depth b - k_depth a)));
      try assumption; [congruence |].
    intros i x y s Hi Hsr. rewrite Da, Db. apply up_value; [match goal with H : (_ <? _) = true |- _ => clear - H; lia end | unfold ng_bits; clear - Ib; lia |].
    replace (k_model b) with MRgb. destruct i as [| [| [| i]]]; [reflexivity | reflexivity | reflexivity | lia].
  - unfold rgb_to_yuv. rewrite Db. change (read_names gin CR CG CB) with (matrix_in MRgb gin). replace MRgb with (k_model a).
    destruct (matrix_result o (k_depth b) gin a gout b [(0, CY); (1, CU); (2, CV)] (fun n => match n with CY => 0 | CU => 1 | _ => 2 end)) as (g' & E & P);
      try assumption; [match goal with H : same_sub a b = true |- _ => destruct (sub_is _ _ H) as [A1 A2] end; unfold same_sub; rewrite A1, A2; assumption | clear - Da' Db'; lia | replace (k_model b) with MYuv; reflexivity | intros e [<- | [<- | [<- | []]]]; reflexivity |].
    exists g'. split; [exact E |]. eapply prim_ext; [exact P |]. intros n x y. replace (k_model a) with MRgb. reflexivity.
  - unfold yuv_to_rgb. rewrite Da. change (read_names gin CY CU CV) with (matrix_in MYuv gin). replace MYuv with (k_model a).
    destruct (matrix_result o (k_depth a) gin a gout b [(3, CR); (4, CG); (5, CB)] (fun n => match n with CR => 3 | CG => 4 | _ => 5 end)) as (g' & E & P);
      try assumption; [match goal with H : same_sub a b = true |- _ => destruct (sub_is _ _ H) as [A1 A2] end; unfold same_sub; rewrite A1, A2; assumption | clear - Da' Db'; lia | replace (k_model b) with MRgb; reflexivity | intros e [<- | [<- | [<- | []]]]; reflexivity |].
    exists g'. split; [exact E |]. eapply prim_ext; [exact P |]. intros n x y. replace (k_model a) with MYuv. reflexivity.
Qed.
