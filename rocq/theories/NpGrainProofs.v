(** Proofs about whole numpy grains: their components and writing to them. *)
From Coq Require Import Lia ZifyBool ZifyNat.
From Verif Require Import Base BaseProofs CogEnums VideoLayout LayoutSpec LayoutProofs NpView NpViewProofs NpSpec.
Ltac Zify.zify_post_hook ::= Z.div_mod_to_equations.

(** Each kind of format is planar or packed. *)
Definition kind_source (f : Z) (k : kind) : bool :=
  existsb (fun e => (fst e =? f) && match snd e with
     | Planar hs vs b => (hs =? k_hs k) && (vs =? k_vs k) && (k_depth k <=? 8 * b) | _ => false end) pictures ||
  existsb (fun e => (fst (fst e) =? f) && match k_model k with
     | MYuv => (k_hs k =? 2) && (k_vs k =? 1) | MRgb => (k_hs k =? 1) && (k_vs k =? 1) end) packed_views.

Definition kind_facts (e : Z * kind) : bool :=
  let '(f, k) := e in
  kind_source f k && (ACTIVE_BITS f =? k_depth k) &&
  ((k_hs k =? 1) || (k_hs k =? 2)) && ((k_vs k =? 1) || (k_vs k =? 2)) && (0 <? k_depth k) &&
  match k_model k with
  | MYuv => match arrangement_of f with OYUV => true | _ => false end
  | MRgb => (k_hs k =? 1) && (k_vs k =? 1) && match arrangement_of f with ORGB | OBGR => true | _ => false end
  end &&
  match np_itemsize f with Ok item => (k_depth k <=? 8 * item) && (8 * item <=? 32) && (0 <? item) && (if k_depth k =? 8 then item =? 1 else true) | Err _ => false end.

Lemma kinds_facts : forallb kind_facts kinds = true.
Proof. vm_compute. reflexivity. Qed.

Lemma kind_fact f k : In (f, k) kinds ->
  kind_source f k = true /\ ACTIVE_BITS f = k_depth k /\ (k_hs k = 1 \/ k_hs k = 2) /\ (k_vs k = 1 \/ k_vs k = 2) /\ 0 < k_depth k /\
  match k_model k with MYuv => arrangement_of f = OYUV | MRgb => k_hs k = 1 /\ k_vs k = 1 /\ (arrangement_of f = ORGB \/ arrangement_of f = OBGR) end /\
  exists item, np_itemsize f = Ok item /\ k_depth k <= 8 * item <= 32 /\ 0 < item.
Proof.
  intros Hin. pose proof kinds_facts as H. rewrite forallb_forall in H. specialize (H _ Hin). unfold kind_facts in H.
  repeat (apply andb_true_iff in H; destruct H as [H ?]). split; [assumption |]. split; [lia |]. split; [lia |]. split; [lia |]. split; [lia |].
  split.
  - destruct (k_model k); [destruct (arrangement_of f); try discriminate; reflexivity |].
    apply andb_true_iff in H1. destruct H1 as [H1 H1']. split; [lia |]. split; [lia |].
    destruct (arrangement_of f); try discriminate; tauto.
  - destruct (np_itemsize f) as [item |]; [| discriminate]. exists item. split; [reflexivity |]. lia.
Qed.

(** The three views of a grain. *)
Definition good_views (l : list view) (k : kind) (w h len : Z) : Prop :=
  separated l /\ inside l len /\
  exists a b c, l = [a; b; c] /\ v_w a = w /\ v_h a = h /\ v_w b = w / k_hs k /\ v_h b = h / k_vs k /\ v_w c = w / k_hs k /\ v_h c = h / k_vs k.


Lemma packed_sizes f item vs w h : In (f, item, vs) packed_views -> 0 <= w -> 0 <= h ->
  (exists b0 b1 b2, vs w h = [mkView b0 2 (w * 2) w h; mkView b1 4 (w * 2) (w / 2) h; mkView b2 4 (w * 2) (w / 2) h] /\
     ((b0 = 1 /\ b1 = 0 /\ b2 = 2) \/ (b0 = 0 /\ b1 = 1 /\ b2 = 3)) /\ size_for_format f w h = w * h * 2 * item /\ 0 < item /\ arrangement_of f = OYUV) \/
  (exists b0 b1 b2 n, vs w h = [mkView b0 n (w * n) w h; mkView b1 n (w * n) w h; mkView b2 n (w * n) w h] /\
     0 <= b0 < n /\ 0 <= b1 < n /\ 0 <= b2 < n /\ b0 <> b1 /\ b0 <> b2 /\ b1 <> b2 /\ size_for_format f w h = w * h * n * item /\ 0 < item /\
     (arrangement_of f = ORGB \/ arrangement_of f = OBGR)).
Proof.
  intros Hin Hw Hh. unfold packed_views in Hin. cbn [In] in Hin.
  repeat (destruct Hin as [Hin | Hin]; [injection Hin as <- <- <- |]); [.. | destruct Hin].
  1, 3: left; do 3 eexists; split; [unfold views_422; rewrite !Z.div_1_r; reflexivity |].
  3: left; do 3 eexists; split; [unfold views_422; change (2 * 2 / 2) with 2; change (2 * 4 / 2) with 4;
       replace (w * 4 / 2) with (w * 2) by lia; reflexivity |].
  1, 2, 3: (split; [lia |]; split; [unfold size_for_format; cbv beta; 
    match goal with |- (if ?b then _ else _) = _ => let x := eval vm_compute in b in change b with x end; cbv iota;
    repeat match goal with |- context [if ?b then _ else _] => let x := eval vm_compute in b in change b with x; cbv iota end; ring | split; [lia | vm_compute; reflexivity]]).
  all: right; do 4 eexists; split; [unfold views_444; rewrite !Z.div_1_r; reflexivity |].
  all: repeat (split; [lia |]).
  all: split; [unfold size_for_format;
    repeat match goal with |- context [if ?b then _ else _] => let x := eval vm_compute in b in change b with x; cbv iota end; ring |].
  all: split; [lia | vm_compute; tauto].
Qed.

Lemma kind_views f k w h : In (f, k) kinds -> 0 <= w -> 0 <= h ->
  exists item l, np_itemsize f = Ok item /\ 0 < item /\ views_of f item (components_for_format f w h) = Ok l /\
    good_views l k w h (size_for_format f w h / item) /\ size_for_format f w h mod item = 0.
Proof.
  intros Hin Hw Hh. destruct (kind_fact f k Hin) as (Hsrc & _ & Hhs & Hvs & _ & Hm & item & Hi & Hib & Hi0).
  exists item. unfold kind_source in Hsrc. apply orb_true_iff in Hsrc. destruct Hsrc as [Hsrc | Hsrc].
  - apply existsb_exists in Hsrc. destruct Hsrc as ([f' p] & Hp & E). cbn [fst snd] in E. apply andb_true_iff in E. destruct E as [E1 E2].
    apply Z.eqb_eq in E1. subst f'. destruct p as [hs vs b | |]; try discriminate.
    assert (hs = k_hs k) by lia. assert (vs = k_vs k) by lia. subst hs vs. clear E2.
    destruct (pictures_planar f _ _ _ Hp) as (Hpl & Hb & _ & _ & Hb0).
    assert (b = item). { unfold np_itemsize in Hi. rewrite Hpl in Hi. congruence. } clear Hb. subst b.
    exists (planar_views (k_hs k) (k_vs k) w h). split; [exact Hi |]. split; [exact Hi0 |].
    split; [apply views_planar; assumption |].
    assert (Hsz : size_for_format f w h = (w * h + 2 * (w * h / (k_hs k * k_vs k))) * item).
    { pose proof (components_tile f w h Hw Hh) as Ht. destruct (planar_shape f _ _ _ w h Hp Hw Hh) as (o1 & o2 & o3 & E).
      rewrite E in Ht. cbn [tiles vc_offset vc_length] in Ht.
      replace ((w * h + 2 * (w * h / (k_hs k * k_vs k))) * item) with (w * h * item + 2 * (w * h / (k_hs k * k_vs k) * item)) by ring.
      generalize dependent (w * h / (k_hs k * k_vs k) * item). intros c Ht. lia. }
    rewrite Hsz, Z.div_mul, Z.mod_mul by lia. split; [| reflexivity].
    destruct (planar_separated (k_hs k) (k_vs k) w h Hhs Hvs Hw Hh) as [S1 S2].
    split; [exact S1 |]. split; [exact S2 |]. unfold planar_views. do 3 eexists. split; [reflexivity |]. cbn [v_w v_h]. tauto.
  - apply existsb_exists in Hsrc. destruct Hsrc as ([[f' it] vs] & Hp & E). cbn [fst snd] in E. apply andb_true_iff in E. destruct E as [E1 E2].
    apply Z.eqb_eq in E1. subst f'. destruct (views_packed f it vs w h Hp) as (Hit & Hv & _).
    assert (it = item) by congruence. subst it. exists (vs w h).
    split; [exact Hi |]. split; [exact Hi0 |]. split; [exact Hv |].
    destruct (packed_sizes f item vs w h Hp Hw Hh) as [(b0 & b1 & b2 & El & Hb & Hsz & _ & Ha) | (b0 & b1 & b2 & n & El & B0 & B1 & B2 & N1 & N2 & N3 & Hsz & _ & Ha)].
    + rewrite Hsz, Z.div_mul, Z.mod_mul by lia. split; [| reflexivity]. rewrite El.
      destruct (views_422_sep b0 b1 b2 w h Hw Hh Hb) as [S1 S2]. split; [exact S1 |]. split; [exact S2 |].
      do 3 eexists. split; [reflexivity |]. cbn [v_w v_h].
      destruct (k_model k); [| destruct Hm as (_ & _ & [Hm | Hm]); congruence].
      assert (k_hs k = 2) by lia. assert (k_vs k = 1) by lia. rewrite H, H0, Z.div_1_r. tauto.
    + rewrite Hsz, Z.div_mul, Z.mod_mul by lia. split; [| reflexivity]. rewrite El.
      destruct (views_444_sep b0 b1 b2 w h n Hw Hh B0 B1 B2 N1 N2 N3) as [S1 S2]. split; [exact S1 |]. split; [exact S2 |].
      do 3 eexists. split; [reflexivity |]. cbn [v_w v_h].
      destruct (k_model k); [destruct Ha; congruence |]. destruct Hm as (-> & -> & _). rewrite !Z.div_1_r. tauto.
Qed.

Lemma kind_new f k w h : In (f, k) kinds -> 0 <= w -> 0 <= h ->
  exists g, ng_new f w h = Ok g /\ g_fmt g = f /\ g_w g = w /\ g_h g = h /\ np_itemsize f = Ok (g_item g) /\
    g_len g = size_for_format f w h / g_item g /\ (forall i, g_data g i = 0).
Proof.
  intros Hin Hw Hh. destruct (kind_views f k w h Hin Hw Hh) as (item & l & Hi & Hi0 & Hv & _ & Hm).
  pose proof (size_nonneg f w h Hw Hh) as Hs.
  unfold ng_new, new_video. cbv zeta. destruct (Z.ltb_spec (size_for_format f w h) 0); [lia |].
  cbn [rbind fst snd]. rewrite Hi. cbn [rbind]. rewrite zlen_zeros' by lia. rewrite Hm. cbn [Z.eqb negb]. rewrite Hv. cbn [rbind].
  eexists. split; [reflexivity |]. cbn [g_fmt g_w g_h g_item g_len g_data]. repeat split; assumption.
Qed.

Lemma grain_views g k : has_kind g k -> exists l, ng_views g = Ok l /\ good_views l k (g_w g) (g_h g) (g_len g) /\
  np_itemsize (g_fmt g) = Ok (g_item g) /\ 0 < g_item g /\ k_depth k <= 8 * g_item g <= 32.
Proof.
  intros [Hin (Hw & Hh & (g0 & E & Ei & El) & _)].
  destruct (kind_views _ _ _ _ Hin Hw Hh) as (item & l & Hi & Hi0 & Hv & Hg & _).
  destruct (kind_new _ _ _ _ Hin Hw Hh) as (g1 & E1 & _ & _ & _ & I1 & L1 & _). rewrite E in E1. injection E1 as <-.
  assert (item = g_item g) by congruence. subst item.
  exists l. unfold ng_views. split; [exact Hv |]. split; [rewrite El, L1, <- Ei; exact Hg |]. split; [exact Hi |]. split; [exact Hi0 |].
  destruct (kind_fact _ _ Hin) as (_ & _ & _ & _ & _ & _ & it & Hit & Hb & _). rewrite Hi in Hit. injection Hit as <-. exact Hb.
Qed.

Definition cidx (f : Z) (n : cname) (i : nat) : Prop := cindex (arrangement_of f) n = Some i.

Lemma name_index f k n : In (f, k) kinds -> In n (names (k_model k)) -> exists i, cidx f n i /\ (i < 3)%nat.
Proof.
  intros Hin Hn. destruct (kind_fact _ _ Hin) as (_ & _ & _ & _ & _ & Hm & _). unfold cidx.
  destruct (k_model k); cbn [names In] in Hn.
  - rewrite Hm. repeat (destruct Hn as [<- | Hn]; [eexists; split; [reflexivity | lia] |]). destruct Hn.
  - destruct Hm as (_ & _ & [-> | ->]); repeat (destruct Hn as [<- | Hn]; [eexists; split; [reflexivity | lia] |]); destruct Hn.
Qed.

Lemma index_inj f n n' i : cidx f n i -> cidx f n' i -> n = n'.
Proof. unfold cidx. intros H H'. destruct (arrangement_of f), n, n'; cbn [cindex] in *; congruence. Qed.

Lemma index_other f n n' i j : cidx f n i -> cidx f n' j -> n <> n' -> i <> j.
Proof. intros H H' Hn ->. apply Hn. eapply index_inj; eassumption. Qed.

(** The view of a component. *)
Lemma comp_view g k n : has_kind g k -> In n (names (k_model k)) ->
  exists l i v, ng_views g = Ok l /\ good_views l k (g_w g) (g_h g) (g_len g) /\ cidx (g_fmt g) n i /\ nth_error l i = Some v /\ ng_comp g n = Ok v /\
    v_w v = comp_w k n (g_w g) /\ v_h v = comp_h k n (g_h g).
Proof.
  intros Hk Hn. pose proof (proj1 Hk) as Hin. destruct (grain_views g k Hk) as (l & Hl & Hg & _). destruct (name_index _ _ _ Hin Hn) as (i & Hi & Hi3).
  destruct Hg as (S1 & S2 & a & b & c & El & A1 & A2 & B1 & B2 & C1 & C2).
  assert (Hv : exists v, nth_error l i = Some v).
  { rewrite El. destruct i as [| [| [| i]]]; cbn [nth_error]; try (eexists; reflexivity). lia. }
  destruct Hv as [v Hv]. exists l, i, v. split; [exact Hl |]. split; [split; [exact S1 | split; [exact S2 | exists a, b, c; tauto]] |].
  split; [exact Hi |]. split; [exact Hv |]. split.
  { unfold ng_comp. unfold cidx in Hi. rewrite Hi. unfold ng_view. rewrite Hl. cbn [rbind]. rewrite Hv. reflexivity. }
  destruct (kind_fact _ _ Hin) as (_ & _ & _ & _ & _ & Hm & _). unfold cidx in Hi. rewrite El in Hv.
  destruct (k_model k); cbn [names In] in Hn.
  - rewrite Hm in Hi. destruct Hn as [<- | [<- | [<- | []]]]; cbn [cindex] in Hi; injection Hi as <-; cbn [nth_error] in Hv; injection Hv as <-; cbn [comp_w comp_h]; tauto.
  - destruct Hm as (Hh1 & Hv1 & Ha). rewrite Hh1, Z.div_1_r in B1, C1. rewrite Hv1, Z.div_1_r in B2, C2.
    destruct Ha as [Ha | Ha]; rewrite Ha in Hi; destruct Hn as [<- | [<- | [<- | []]]]; cbn [cindex] in Hi; injection Hi as <-; cbn [nth_error] in Hv;
      injection Hv as <-; cbn [comp_w comp_h]; tauto.
Qed.

Lemma sample_view g n v x y : ng_comp g n = Ok v -> sample g n x y = g_data g (v_addr v x y).
Proof. intros E. unfold sample. rewrite E. reflexivity. Qed.

Lemma upd_all_range (P : Z -> Prop) l : forall d i, P (d i) -> (forall v, In v (map snd l) -> P v) -> P (upd_all d l i).
Proof.
  induction l as [| [k v] l IH]; intros d i Hd Hl; [exact Hd |]. unfold upd_all. cbn [fold_left]. change (P (upd_all (upd d k v) l i)).
  apply IH.
  - unfold upd. cbn [fst snd]. destruct (i =? k); [apply Hl; left; reflexivity | exact Hd].
  - intros w Hw. apply Hl. right. exact Hw.
Qed.

Lemma v_assign_range bits d v a d' i : 0 <= bits -> v_assign bits d v a = Ok d' -> 0 <= d i < 2 ^ bits -> 0 <= d' i < 2 ^ bits.
Proof.
  intros Hb E Hd. unfold v_assign in E. destruct (_ && _); [| discriminate]. injection E as <-.
  apply (upd_all_range (fun z => 0 <= z < 2 ^ bits)); [exact Hd |].
  intros w Hw. rewrite map_map in Hw. apply in_map_iff in Hw. destruct Hw as (c & <- & _). cbn [snd]. apply Z.mod_pos_bound. lia.
Qed.

(** The same grain with other data. *)
Definition same_shape (g g' : ngrain) : Prop :=
  g_fmt g' = g_fmt g /\ g_w g' = g_w g /\ g_h g' = g_h g /\ g_item g' = g_item g /\ g_len g' = g_len g.

Lemma same_shape_refl g : same_shape g g.
Proof. repeat split. Qed.

Lemma same_shape_trans a b c : same_shape a b -> same_shape b c -> same_shape a c.
Proof. intros (A1 & A2 & A3 & A4 & A5) (B1 & B2 & B3 & B4 & B5). repeat split; congruence. Qed.

Lemma same_shape_comp g g' n : same_shape g g' -> ng_comp g' n = ng_comp g n.
Proof. intros (E1 & E2 & E3 & E4 & _). unfold ng_comp, ng_view, ng_views. rewrite E1, E2, E3, E4. reflexivity. Qed.

Lemma same_shape_view g g' i : same_shape g g' -> ng_view g' i = ng_view g i.
Proof. intros (E1 & E2 & E3 & E4 & _). unfold ng_view, ng_views. rewrite E1, E2, E3, E4. reflexivity. Qed.

(** Writing to a part of a component. *)
Lemma write_comp g k n v u fx fy a : has_kind g k -> In n (names (k_model k)) -> ng_comp g n = Ok v -> part_of u v fx fy ->
  a_w a = v_w u -> a_h a = v_h u ->
  exists g', ng_write g u a = Ok g' /\ same_shape g g' /\ has_kind g' k /\
    (forall x y, in_view u x y -> sample g' n (fx x) (fy y) = a_at a x y mod 2 ^ (8 * g_item g)) /\
    (forall n' x y, In n' (names (k_model k)) -> 0 <= x < comp_w k n' (g_w g) -> 0 <= y < comp_h k n' (g_h g) ->
       (n' <> n \/ (forall x' y', in_view u x' y' -> x <> fx x' \/ y <> fy y')) -> sample g' n' x y = sample g n' x y).
Proof.
  intros Hk Hn Ev Hp Hw Hh. destruct (comp_view g k n Hk Hn) as (l & i & v' & Hl & Hg & Hi & Hnth & Ev' & Wv & Hv).
  rewrite Ev in Ev'. injection Ev' as <-. pose proof Hg as (S1 & S2 & _).
  destruct (write_part l i v u fx fy (8 * g_item g) (g_data g) a S1 Hnth Hp Hw Hh) as (d' & E & P1 & P2 & _).
  unfold ng_write. unfold ng_bits. rewrite E. cbn [rbind]. eexists. split; [reflexivity |].
  set (g' := mkNg _ _ _ _ _ _).
  assert (Hs : same_shape g g') by (repeat split).
  split; [exact Hs |]. split.
  - destruct Hk as [Hin (W & H & Hnew & Hr)]. split; [exact Hin |]. split; [exact W |]. split; [exact H |]. split; [exact Hnew |].
    intros j Hj. cbn [g_data g_item g_len g'] in *. eapply v_assign_range; [| exact E | apply Hr; exact Hj].
    destruct (grain_views g k (conj Hin (conj W (conj H (conj Hnew Hr))))) as (_ & _ & _ & _ & Hi0 & _). lia.
  - split.
    + intros x y Hxy. rewrite (sample_view g' n v) by (rewrite (same_shape_comp g g' n Hs); exact Ev). cbn [g_data g']. apply P1. exact Hxy.
    + intros n' x y Hn' Hx Hy Hne. destruct (comp_view g k n' Hk Hn') as (l' & i' & v' & Hl' & _ & Hi' & Hnth' & Ev' & Wv' & Hv').
      rewrite Hl in Hl'. injection Hl' as <-.
      rewrite (sample_view g' n' v') by (rewrite (same_shape_comp g g' n' Hs); exact Ev'). rewrite (sample_view g n' v') by exact Ev'.
      cbn [g_data g']. apply (P2 i' v'); [exact Hnth' | split; lia |].
      destruct Hne as [Hne | Hne]; [left; eapply index_other; eassumption | right; exact Hne].
Qed.

(** A new grain. *)
Lemma new_has_kind f k w h : In (f, k) kinds -> 0 <= w -> 0 <= h ->
  exists g, ng_new f w h = Ok g /\ has_kind g k /\ g_fmt g = f /\ g_w g = w /\ g_h g = h.
Proof.
  intros Hin Hw Hh. destruct (kind_new f k w h Hin Hw Hh) as (g & E & E1 & E2 & E3 & I & L & D).
  exists g. split; [exact E |]. split; [| tauto]. split; [rewrite E1; exact Hin |].
  split; [lia |]. split; [lia |]. rewrite E1, E2, E3. split; [exists g; tauto |].
  intros i _. rewrite D. split; [lia |]. apply Z.pow_pos_nonneg; [lia |].
  destruct (kind_fact _ _ Hin) as (_ & _ & _ & _ & _ & _ & it & Hit & Hb & Hpos). rewrite I in Hit. injection Hit as <-. lia.
Qed.

Lemma sample_range g k n x y : has_kind g k -> In n (names (k_model k)) -> 0 <= x < comp_w k n (g_w g) -> 0 <= y < comp_h k n (g_h g) ->
  0 <= sample g n x y < 2 ^ (8 * g_item g).
Proof.
  intros Hk Hn Hx Hy. destruct (comp_view g k n Hk Hn) as (l & i & v & _ & (_ & S2 & _) & _ & Hnth & Ev & Wv & Hv).
  rewrite (sample_view g n v) by exact Ev. destruct Hk as [_ (_ & _ & _ & Hr)]. apply Hr. apply (S2 i v); [exact Hnth |]. split; lia.
Qed.
