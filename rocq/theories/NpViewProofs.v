(** Proofs about the views of numpy grains: where they are, that they are separate, and what writing does. *)
From Coq Require Import Lia ZifyBool ZifyNat FinFun.
From Verif Require Import Base BaseProofs CogEnums VideoLayout LayoutSpec LayoutProofs NpView.
Ltac Zify.zify_post_hook ::= Z.div_mod_to_equations.

Lemma in_zrange n x : In x (zrange n) <-> 0 <= x < n.
Proof.
  unfold zrange. rewrite in_map_iff. split.
  - intros (k & <- & H). apply in_seq in H. lia.
  - intros H. exists (Z.to_nat x). split; [lia | apply in_seq; lia].
Qed.

Lemma NoDup_zrange n : NoDup (zrange n).
Proof. unfold zrange. apply FinFun.Injective_map_NoDup; [intros a b; lia | apply seq_NoDup]. Qed.

Lemma in_cells v x y : In (x, y) (v_cells v) <-> 0 <= x < v_w v /\ 0 <= y < v_h v.
Proof.
  unfold v_cells. rewrite in_flat_map. split.
  - intros (b & Hb & H). apply in_map_iff in H. destruct H as (a & E & Ha). injection E as -> ->.
    apply in_zrange in Ha, Hb. split; assumption.
  - intros [Hx Hy]. exists y. split; [apply in_zrange; exact Hy |]. apply in_map_iff. exists x. split; [reflexivity | apply in_zrange; exact Hx].
Qed.

Lemma NoDup_app_intro {A} (l1 l2 : list A) : NoDup l1 -> NoDup l2 -> (forall x, In x l1 -> In x l2 -> False) -> NoDup (l1 ++ l2).
Proof.
  induction l1 as [| a l1 IH]; intros H1 H2 H; [exact H2 |]. cbn [app]. apply NoDup_cons_iff in H1. destruct H1 as [Ha H1].
  constructor.
  - rewrite in_app_iff. intros [i | i]; [exact (Ha i) | exact (H a (or_introl eq_refl) i)].
  - apply IH; [exact H1 | exact H2 |]. intros x i j. exact (H x (or_intror i) j).
Qed.

Lemma NoDup_grid {A B} (f : A -> B -> A * B) (xs : list A) (ys : list B) : (forall a b, f a b = (a, b)) -> NoDup xs -> NoDup ys ->
  NoDup (flat_map (fun y => map (fun x => f x y) xs) ys).
Proof.
  intros Hf Hx Hy. induction ys as [| y ys IH]; [constructor |]. cbn [flat_map]. apply NoDup_cons_iff in Hy. destruct Hy as [Hn Hy].
  apply NoDup_app_intro.
  - apply FinFun.Injective_map_NoDup; [| exact Hx]. intros a b E. rewrite !Hf in E. congruence.
  - apply IH. exact Hy.
  - intros [a b] H1 H2. apply in_map_iff in H1. destruct H1 as (x & E & _). rewrite Hf in E. injection E as -> ->.
    apply in_flat_map in H2. destruct H2 as (b' & Hb & H2). apply in_map_iff in H2. destruct H2 as (x' & E & _). rewrite Hf in E.
    injection E as -> ->. exact (Hn Hb).
Qed.

Lemma NoDup_cells v : NoDup (v_cells v).
Proof. unfold v_cells. apply (NoDup_grid (fun x y => (x, y))); [reflexivity | apply NoDup_zrange | apply NoDup_zrange]. Qed.

Lemma NoDup_map_on {A B} (f : A -> B) (l : list A) : (forall a b, In a l -> In b l -> f a = f b -> a = b) -> NoDup l -> NoDup (map f l).
Proof.
  induction l as [| a l IH]; intros Hf Hl; [constructor |]. cbn [map]. apply NoDup_cons_iff in Hl. destruct Hl as [Hn Hl].
  constructor.
  - rewrite in_map_iff. intros (b & E & Hb). apply Hn. rewrite <- (Hf b a (or_intror Hb) (or_introl eq_refl) E). exact Hb.
  - apply IH; [| exact Hl]. intros x y Hx Hy. apply Hf; right; assumption.
Qed.

(** Writes. *)
Lemma upd_all_out l : forall d i, ~ In i (map fst l) -> upd_all d l i = d i.
Proof.
  induction l as [| [k v] l IH]; intros d i H; [reflexivity |]. unfold upd_all. cbn [fold_left].
  change (upd_all (upd d k v) l i = d i). cbn [map fst In] in H. rewrite IH by tauto. unfold upd.
  destruct (Z.eqb_spec i k) as [-> | n]; [exfalso; apply H; left; reflexivity | reflexivity].
Qed.

Lemma upd_all_in l : forall d i v, NoDup (map fst l) -> In (i, v) l -> upd_all d l i = v.
Proof.
  induction l as [| [k v] l IH]; intros d i v' Hn Hin; [destruct Hin |]. unfold upd_all. cbn [fold_left].
  change (upd_all (upd d k v) l i = v'). cbn [map fst] in Hn. apply NoDup_cons_iff in Hn. destruct Hn as [Hk Hn].
  destruct Hin as [E | Hin].
  - injection E as -> ->. rewrite upd_all_out by exact Hk. unfold upd. rewrite Z.eqb_refl. reflexivity.
  - apply IH; assumption.
Qed.

Definition in_view (v : view) (x y : Z) : Prop := 0 <= x < v_w v /\ 0 <= y < v_h v.

Definition v_inj (v : view) : Prop := forall x y x' y', in_view v x y -> in_view v x' y' -> v_addr v x y = v_addr v x' y' -> x = x' /\ y = y'.

Lemma bidx_in n i : 0 <= i < n -> bidx n i = i.
Proof. unfold bidx. destruct (Z.eqb_spec n 1); lia. Qed.

Lemma v_assign_spec bits d v a : v_inj v -> a_w a = v_w v -> a_h a = v_h v ->
  exists d', v_assign bits d v a = Ok d' /\
    (forall x y, in_view v x y -> d' (v_addr v x y) = a_at a x y mod 2 ^ bits) /\
    (forall i, (forall x y, in_view v x y -> v_addr v x y <> i) -> d' i = d i).
Proof.
  intros Hinj Hw Hh. unfold v_assign, fits_dim. rewrite Hw, Hh, !Z.eqb_refl. cbn [orb andb].
  eexists. split; [reflexivity |]. split.
  - intros x y [Hx Hy]. apply upd_all_in.
    + rewrite map_map. cbn [fst]. apply NoDup_map_on; [| apply NoDup_cells].
      intros [a1 b1] [a2 b2] H1 H2 E. apply in_cells in H1, H2. cbn [fst snd] in E.
      destruct (Hinj a1 b1 a2 b2 H1 H2 E) as [-> ->]. reflexivity.
    + apply in_map_iff. exists (x, y). cbn [fst snd]. rewrite !bidx_in by assumption. split; [reflexivity |]. apply in_cells. split; assumption.
  - intros i H. apply upd_all_out. rewrite map_map. cbn [fst]. rewrite in_map_iff. intros ([x y] & E & Hc). cbn [fst snd] in E.
    apply in_cells in Hc. exact (H x y Hc E).
Qed.

(** Separate views. *)
Definition separated (l : list view) : Prop := forall i j u v x y x' y',
  nth_error l i = Some u -> nth_error l j = Some v -> in_view u x y -> in_view v x' y' -> v_addr u x y = v_addr v x' y' ->
  i = j /\ x = x' /\ y = y'.
Definition inside (l : list view) (len : Z) : Prop := forall i u x y,
  nth_error l i = Some u -> in_view u x y -> 0 <= v_addr u x y < len.

(** [u] is part of [v], its (x, y) being the cell [fx x, fy y] of [v]. *)
Definition part_of (u v : view) (fx fy : Z -> Z) : Prop :=
  (forall x y, in_view u x y -> in_view v (fx x) (fy y) /\ v_addr u x y = v_addr v (fx x) (fy y)) /\
  (forall x x' y, in_view u x y -> in_view u x' y -> fx x = fx x' -> x = x') /\
  (forall y y' x, in_view u x y -> in_view u x y' -> fy y = fy y' -> y = y').

Lemma part_refl v : part_of v v (fun x => x) (fun y => y).
Proof. repeat split; intros; try apply H; auto. Qed.

Lemma part_slice_x v k s : 0 <= k -> 0 < s -> part_of (v_slice_x v k s) v (fun x => k + s * x) (fun y => y).
Proof.
  intros Hk Hs. unfold part_of, in_view, v_slice_x, v_addr, slice_count. cbn [v_w v_h v_base v_sx v_sy].
  split; [| split; [intros; nia | auto]].
  intros x y [Hx Hy]. split; [| ring]. split; [| exact Hy].
  destruct (Z.ltb_spec k (v_w v)); [| lia]. assert (s * ((v_w v - k + s - 1) / s) <= v_w v - k + s - 1) by (apply Z.mul_div_le; lia). nia.
Qed.

Lemma part_slice_y v k s : 0 <= k -> 0 < s -> part_of (v_slice_y v k s) v (fun x => x) (fun y => k + s * y).
Proof.
  intros Hk Hs. unfold part_of, in_view, v_slice_y, v_addr, slice_count. cbn [v_w v_h v_base v_sx v_sy].
  split; [| split; [auto | intros; nia]].
  intros x y [Hx Hy]. split; [| ring]. split; [exact Hx |].
  destruct (Z.ltb_spec k (v_h v)); [| lia]. assert (s * ((v_h v - k + s - 1) / s) <= v_h v - k + s - 1) by (apply Z.mul_div_le; lia). nia.
Qed.

Lemma part_first v n : part_of (v_first v n) v (fun x => x) (fun y => y).
Proof.
  unfold part_of, in_view, v_first, v_addr. cbn [v_w v_h v_base v_sx v_sy]. repeat split; intros; try lia.
Qed.

Lemma part_trans u v w fx fy gx gy : part_of u v fx fy -> part_of v w gx gy -> part_of u w (fun x => gx (fx x)) (fun y => gy (fy y)).
Proof.
  intros (A1 & A2 & A3) (B1 & B2 & B3). split; [| split].
  - intros x y H. destruct (A1 x y H) as [H1 E1]. destruct (B1 _ _ H1) as [H2 E2]. split; [exact H2 | congruence].
  - intros x x' y H H' E. apply (A2 x x' y H H'). destruct (A1 x y H) as [H1 _]. destruct (A1 x' y H') as [H2 _]. exact (B2 _ _ _ H1 H2 E).
  - intros y y' x H H' E. apply (A3 y y' x H H'). destruct (A1 x y H) as [H1 _]. destruct (A1 x y' H') as [H2 _]. exact (B3 _ _ _ H1 H2 E).
Qed.

Lemma separated_inj l i v : separated l -> nth_error l i = Some v -> v_inj v.
Proof. intros Hs Hi x y x' y' H H' E. destruct (Hs i i v v x y x' y' Hi Hi H H' E) as (_ & Hx & Hy). split; assumption. Qed.

Lemma part_inj u v fx fy : part_of u v fx fy -> v_inj v -> v_inj u.
Proof.
  intros (A1 & A2 & A3) Hv x y x' y' H H' E.
  destruct (A1 x y H) as [H1 E1]. destruct (A1 x' y' H') as [H2 E2]. rewrite E1, E2 in E.
  destruct (Hv _ _ _ _ H1 H2 E) as [Ex Ey]. unfold in_view in H, H'.
  split; [apply (A2 x x' y) | apply (A3 y y' x)]; unfold in_view; tauto.
Qed.

(** Writing through a part of view [i] changes that part and nothing else in any view. *)
Lemma write_part l i v u fx fy bits d a : separated l -> nth_error l i = Some v -> part_of u v fx fy ->
  a_w a = v_w u -> a_h a = v_h u ->
  exists d', v_assign bits d u a = Ok d' /\
    (forall x y, in_view u x y -> d' (v_addr v (fx x) (fy y)) = a_at a x y mod 2 ^ bits) /\
    (forall j w x y, nth_error l j = Some w -> in_view w x y ->
       (j <> i \/ (forall x' y', in_view u x' y' -> x <> fx x' \/ y <> fy y')) -> d' (v_addr w x y) = d (v_addr w x y)) /\
    (forall p, (forall x y, in_view v x y -> v_addr v x y <> p) -> d' p = d p).
Proof.
  intros Hs Hi Hp Hw Hh. pose proof Hp as (P1 & _).
  destruct (v_assign_spec bits d u a) as (d' & E & H1 & H2); [eapply part_inj; [exact Hp | eapply separated_inj; eassumption] | assumption | assumption |].
  exists d'. split; [exact E |]. split; [| split].
  - intros x y H. destruct (P1 x y H) as [_ <-]. apply H1. exact H.
  - intros j w x y Hj Hin Hne. apply H2. intros x' y' H' E'. destruct (P1 x' y' H') as [Hin' Ea]. rewrite Ea in E'.
    destruct (Hs _ _ _ _ _ _ _ _ Hi Hj Hin' Hin E') as (Hij & Hx & Hy).
    destruct Hne as [Hne | Hne]; [exact (Hne (eq_sym Hij)) |]. destruct (Hne x' y' H') as [n | n]; congruence.
  - intros p Hpn. apply H2. intros x y H. destruct (P1 x y H) as [Hin ->]. apply Hpn. exact Hin.
Qed.

(** Where the views are. *)
Lemma line_unique s y k y' k' : 0 <= k < s -> 0 <= k' < s -> y * s + k = y' * s + k' -> y = y' /\ k = k'.
Proof. intros. assert (y = y') by nia. subst. lia. Qed.

Definition planar_views (hs vs w h : Z) : list view :=
  [mkView 0 1 w w h; mkView (w * h) 1 (w / hs) (w / hs) (h / vs);
   mkView (w * h + w * h / (hs * vs)) 1 (w / hs) (w / hs) (h / vs)].

Lemma pictures_planar f hs vs b : In (f, Planar hs vs b) pictures ->
  IS_PLANAR f = true /\ BYTES_PER_VALUE f = b /\ (hs = 1 \/ hs = 2) /\ (vs = 1 \/ vs = 2) /\ 0 < b.
Proof.
  intros Hin. assert (H : forallb (fun x => match snd x with Planar hs vs b =>
      IS_PLANAR (fst x) && (BYTES_PER_VALUE (fst x) =? b) && ((hs =? 1) || (hs =? 2)) && ((vs =? 1) || (vs =? 2)) && (0 <? b) | _ => true end) pictures = true)
    by (vm_compute; reflexivity).
  rewrite forallb_forall in H. specialize (H _ Hin). cbn [fst snd] in H. repeat split; try lia.
  repeat (apply andb_true_iff in H; destruct H as [H ?]). assumption.
Qed.

Lemma views_planar f hs vs b w h : In (f, Planar hs vs b) pictures -> 0 <= w -> 0 <= h ->
  views_of f b (components_for_format f w h) = Ok (planar_views hs vs w h).
Proof.
  intros Hin Hw Hh. destruct (pictures_planar f hs vs b Hin) as (Hp & Hb & Hhs & Hvs & Hb0).
  destruct (planar_shape f hs vs b w h Hin Hw Hh) as (o1 & o2 & o3 & E).
  pose proof (components_tile f w h Hw Hh) as Ht. unfold views_of. rewrite Hp. rewrite E in Ht |- *.
  cbn [tiles vc_offset vc_length] in Ht. destruct Ht as (-> & _ & -> & _ & -> & _ & _).
  cbn [map vc_offset vc_stride vc_width vc_height]. unfold planar_views.
  rewrite !Z.div_mul by lia. replace (0 + w * h * b) with (w * h * b) by ring.
  replace (w * h * b + w * h / (hs * vs) * b) with ((w * h + w * h / (hs * vs)) * b) by ring.
  rewrite !Z.div_mul by lia. reflexivity.
Qed.

Lemma planar_separated hs vs w h : (hs = 1 \/ hs = 2) -> (vs = 1 \/ vs = 2) -> 0 <= w -> 0 <= h ->
  separated (planar_views hs vs w h) /\ inside (planar_views hs vs w h) (w * h + 2 * (w * h / (hs * vs))).
Proof.
  intros Hhs Hvs Hw Hh.
  assert (Hc : 0 <= w / hs /\ 0 <= h / vs) by (split; apply Z.div_pos; lia).
  pose proof (floor_mul w h hs vs ltac:(lia) ltac:(lia) Hw Hh) as Hf.
  unfold separated, inside, planar_views. generalize dependent (w / hs). generalize dependent (h / vs).
  generalize (w * h / (hs * vs)). intros L cw ch Hc Hf.
  assert (Hn : forall i u, nth_error [mkView 0 1 w w h; mkView (w * h) 1 ch ch cw; mkView (w * h + L) 1 ch ch cw] i = Some u ->
    (i = 0%nat /\ u = mkView 0 1 w w h) \/ (i = 1%nat /\ u = mkView (w * h) 1 ch ch cw) \/ (i = 2%nat /\ u = mkView (w * h + L) 1 ch ch cw)).
  { intros [| [| [| i]]] u E; cbn [nth_error] in E; try (injection E as <-; tauto). destruct i; discriminate. }
  assert (Hb : forall a b x y, 0 <= x < a -> 0 <= y < b -> 0 <= y * a + x * 1 < a * b) by (intros; nia).
  split.
  - intros i j u v x y x' y' Hi Hj H H' E. apply Hn in Hi, Hj.
    destruct Hi as [[-> ->] | [[-> ->] | [-> ->]]], Hj as [[-> ->] | [[-> ->] | [-> ->]]];
      unfold in_view, v_addr in *; cbn [v_base v_sx v_sy v_w v_h] in *; destruct H as [Hx Hy], H' as [Hx' Hy'];
      pose proof (Hb _ _ _ _ Hx Hy) as B1; pose proof (Hb _ _ _ _ Hx' Hy') as B2;
      first [exfalso; lia |
        split; [reflexivity |];
        match type of Hx with _ <= _ < ?s => destruct (line_unique s y x y' x') as [-> ->]; [lia | lia | lia |]; split; reflexivity end].
  - intros i u x y Hi H. apply Hn in Hi.
    destruct Hi as [[-> ->] | [[-> ->] | [-> ->]]]; unfold in_view, v_addr in *; cbn [v_base v_sx v_sy v_w v_h] in *; destruct H as [Hx Hy];
      pose proof (Hb _ _ _ _ Hx Hy) as B1; lia.
Qed.

(** Packed formats: item size, group of four or three. *)
Definition packed_views : list (Z * Z * (Z -> Z -> list view)) :=
  [(UYVY, 1, fun w h => views_422 1 0 2 w h (w * 2) 1); (v216, 2, fun w h => views_422 1 0 2 w h (w * 4) 2);
   (YUYV, 1, fun w h => views_422 0 1 3 w h (w * 2) 1);
   (RGB, 1, fun w h => views_444 0 1 2 w h (w * 3) 1 3);
   (RGBx, 1, fun w h => views_444 0 1 2 w h (w * 4) 1 4); (RGBA, 1, fun w h => views_444 0 1 2 w h (w * 4) 1 4);
   (BGRx, 1, fun w h => views_444 0 1 2 w h (w * 4) 1 4);
   (ARGB, 1, fun w h => views_444 1 2 3 w h (w * 4) 1 4); (xRGB, 1, fun w h => views_444 1 2 3 w h (w * 4) 1 4);
   (ABGR, 1, fun w h => views_444 1 2 3 w h (w * 4) 1 4); (xBGR, 1, fun w h => views_444 1 2 3 w h (w * 4) 1 4)].

Lemma views_packed f item vs w h : In (f, item, vs) packed_views ->
  np_itemsize f = Ok item /\ views_of f item (components_for_format f w h) = Ok (vs w h) /\
  exists n, size_for_format f w h = w * h * n /\ n mod item = 0.
Proof.
  intros Hin. unfold packed_views in Hin. cbn [In] in Hin.
  repeat (destruct Hin as [Hin | Hin]; [injection Hin as <- <- <- |]); [.. | destruct Hin].
  all: split; [vm_compute; reflexivity |].
  all: unfold components_for_format, size_for_format, views_of.
  all: repeat match goal with |- context [Z.land (Z.shiftr ?f 8) 1 =? 0] =>
     let b := eval vm_compute in (Z.land (Z.shiftr f 8) 1 =? 0) in change (Z.land (Z.shiftr f 8) 1 =? 0) with b end; cbv iota.
  all: repeat match goal with |- context [member ?l ?f] =>
     let b := eval vm_compute in (member l f) in change (member l f) with b; cbv iota end.
  all: repeat match goal with |- context [IS_PLANAR ?f] =>
     let b := eval vm_compute in (IS_PLANAR f) in change (IS_PLANAR f) with b; cbv iota end.
  all: repeat match goal with |- context [if Z.eqb ?f ?g then _ else _] =>
     let b := eval vm_compute in (Z.eqb f g) in match b with true => idtac | false => idtac end; change (Z.eqb f g) with b; cbv iota end.
  all: cbn [vc_width vc_height vc_stride]; cbv zeta.
  all: (split; [reflexivity | eexists; split; [reflexivity | reflexivity]]).
Qed.

Definition sep_in (l : list view) (len : Z) : Prop := separated l /\ inside l len.

Lemma three_views (a b c : view) i u : nth_error [a; b; c] i = Some u -> (i = 0%nat /\ u = a) \/ (i = 1%nat /\ u = b) \/ (i = 2%nat /\ u = c).
Proof. destruct i as [| [| [| i]]]; cbn [nth_error]; intros E; try (injection E as <-; tauto). destruct i; discriminate. Qed.

Lemma views_444_sep b0 b1 b2 w h n : 0 <= w -> 0 <= h -> 0 <= b0 < n -> 0 <= b1 < n -> 0 <= b2 < n -> b0 <> b1 -> b0 <> b2 -> b1 <> b2 ->
  sep_in [mkView b0 n (w * n) w h; mkView b1 n (w * n) w h; mkView b2 n (w * n) w h] (w * h * n).
Proof.
  intros Hw Hh H0 H1 H2 N1 N2 N3.
  assert (U : forall b b' x y x' y', 0 <= b < n -> 0 <= b' < n -> 0 <= x < w -> 0 <= x' < w ->
    b + y * (w * n) + x * n = b' + y' * (w * n) + x' * n -> b = b' /\ x = x' /\ y = y').
  { intros b b' x y x' y' Hb Hb' Hx Hx' E. destruct (line_unique n (y * w + x) b (y' * w + x') b'); [lia | lia | nia |].
    destruct (line_unique w y x y' x'); [lia | lia | lia |]. tauto. }
  split.
  - intros i j u v x y x' y' Hi Hj H H' E. apply three_views in Hi, Hj.
    destruct Hi as [[-> ->] | [[-> ->] | [-> ->]]], Hj as [[-> ->] | [[-> ->] | [-> ->]]];
      unfold in_view, v_addr in *; cbn [v_base v_sx v_sy v_w v_h] in *; destruct H as [Hx Hy], H' as [Hx' Hy'];
      apply U in E; try assumption; lia.
  - intros i u x y Hi H. apply three_views in Hi.
    destruct Hi as [[-> ->] | [[-> ->] | [-> ->]]]; unfold in_view, v_addr in *; cbn [v_base v_sx v_sy v_w v_h] in *;
      destruct H as [Hx Hy]; assert (0 <= y * w + x < w * h) by nia; nia.
Qed.

Lemma views_422_sep b0 b1 b2 w h : 0 <= w -> 0 <= h ->
  (b0 = 1 /\ b1 = 0 /\ b2 = 2) \/ (b0 = 0 /\ b1 = 1 /\ b2 = 3) ->
  sep_in [mkView b0 2 (w * 2) w h; mkView b1 4 (w * 2) (w / 2) h; mkView b2 4 (w * 2) (w / 2) h] (w * h * 2).
Proof.
  intros Hw Hh Hb. assert (Hs : 0 < w * 2 \/ w = 0) by lia.
  split.
  - intros i j u v x y x' y' Hi Hj H H' E. apply three_views in Hi, Hj.
    destruct Hi as [[-> ->] | [[-> ->] | [-> ->]]], Hj as [[-> ->] | [[-> ->] | [-> ->]]];
      unfold in_view, v_addr in *; cbn [v_base v_sx v_sy v_w v_h] in *; destruct H as [Hx Hy], H' as [Hx' Hy'];
      match type of E with ?b + ?y * ?s + ?k = ?b' + ?y' * ?s + ?k' => destruct (line_unique s y (b + k) y' (b' + k')) as [-> Ek]; [lia | lia | lia |] end;
      lia.
  - intros i u x y Hi H. apply three_views in Hi.
    destruct Hi as [[-> ->] | [[-> ->] | [-> ->]]]; unfold in_view, v_addr in *; cbn [v_base v_sx v_sy v_w v_h] in *;
      destruct H as [Hx Hy].
    + assert (0 <= b0 + x * 2 < w * 2) by lia. nia.
    + assert (0 <= b1 + x * 4 < w * 2) by lia. nia.
    + assert (0 <= b2 + x * 4 < w * 2) by lia. nia.
Qed.
