(** Where the component arrays of the interleaved formats are. *)
From Coq Require Import Lia ZifyBool ZifyNat.
From Verif Require Import Base BaseProofs CogEnums VideoLayout LayoutSpec LayoutProofs NpView NpViewProofs NpSpec NpGrainProofs.
Ltac Zify.zify_post_hook ::= Z.div_mod_to_equations.

Lemma group_views f grp : In (f, grp) groups -> exists item vs, In (f, item, vs) packed_views.
Proof.
  intros Hin. assert (C : forallb (fun e => existsb (fun p => fst (fst p) =? fst e) packed_views) groups = true) by (vm_compute; reflexivity).
  rewrite forallb_forall in C. specialize (C _ Hin). apply existsb_exists in C. destruct C as ([[f' item] vs] & Hp & E). cbn [fst snd] in E. apply Z.eqb_eq in E. subst f'.
  exists item, vs. exact Hp.
Qed.

Lemma packed_new f item vs w h : In (f, item, vs) packed_views -> 0 <= w -> 0 <= h ->
  exists g, ng_new f w h = Ok g /\ g_fmt g = f /\ g_w g = w /\ g_h g = h /\ g_item g = item /\ g_len g = size_for_format f w h / item /\ (forall i, g_data g i = 0) /\
    ng_views g = Ok (vs w h).
Proof.
  intros Hin Hw Hh. destruct (views_packed f item vs w h Hin) as (Hi & Hv & _).
  pose proof (size_nonneg f w h Hw Hh) as Hs.
  assert (Hm : size_for_format f w h mod item = 0).
  { destruct (packed_sizes f item vs w h Hin Hw Hh) as [(b0 & b1 & b2 & _ & _ & -> & Hp & _) | (b0 & b1 & b2 & n & _ & _ & _ & _ & _ & _ & _ & -> & Hp & _)]; apply Z.mod_mul; lia. }
  unfold ng_new, new_video. cbv zeta. destruct (Z.ltb_spec (size_for_format f w h) 0); [lia |].
  cbn [rbind fst snd]. rewrite Hi. cbn [rbind]. rewrite zlen_zeros' by lia. rewrite Hm. cbn [Z.eqb negb]. rewrite Hv. cbn [rbind].
  eexists. split; [reflexivity |]. unfold ng_views. cbn [g_fmt g_w g_h g_item g_len g_data]. rewrite Hv. repeat split; reflexivity.
Qed.

(** Positions of a line of [n]-item groups. *)
Lemma place_444 n w h b x y : 0 < n -> 0 <= b < n -> 0 <= x < w -> 0 <= y < h ->
  let p := b + y * (w * n) + x * n in 0 <= p < w * h * n /\ p / (w * n) = y /\ p mod (w * n) mod n = b /\ p mod (w * n) / n = x.
Proof.
  intros Hn Hb Hx Hy p. assert (0 <= x * n + b < w * n) by nia. assert (Ep : p = w * n * y + (x * n + b)) by (unfold p; ring).
  assert (E1 : p / (w * n) = y) by (symmetry; apply (Z.div_unique p (w * n) y (x * n + b)); [left; assumption | exact Ep]).
  assert (E2 : p mod (w * n) = x * n + b) by (symmetry; apply (Z.mod_unique p (w * n) y); [left; assumption | exact Ep]).
  split; [| split; [exact E1 |]].
  - assert (0 <= y * w + x < w * h) by nia. unfold p. nia.
  - rewrite E2. split; symmetry; [apply (Z.mod_unique _ _ x) | apply (Z.div_unique _ _ _ b)]; (left; lia) || lia.
Qed.

Lemma split_444 n w h p : 0 < n -> 0 <= w -> 0 <= h -> 0 <= p < w * h * n ->
  let y := p / (w * n) in let k := p mod (w * n) in 0 <= k mod n < n /\ 0 <= k / n < w /\ 0 <= y < h /\ p = k mod n + y * (w * n) + k / n * n.
Proof.
  intros Hn Hw Hh Hp y k. assert (Hw' : 0 < w) by nia. assert (Hwn : 0 < w * n) by nia.
  pose proof (Z.div_mod p (w * n) ltac:(lia)) as E. pose proof (Z.mod_pos_bound p (w * n) Hwn) as Hk. fold y k in E, Hk.
  pose proof (Z.div_mod k n ltac:(lia)) as Ek. pose proof (Z.mod_pos_bound k n Hn) as Hb.
  split; [exact Hb |]. split; [split; [apply Z.div_pos; lia | apply Z.div_lt_upper_bound; nia] |]. split; [| nia].
  split; [apply Z.div_pos; lia |]. apply Z.div_lt_upper_bound; [lia |]. nia.
Qed.

Lemma place_422 w h b s m x y : (s = 2 \/ s = 4) -> 0 <= b -> b + x * s < 2 * w -> 0 <= x -> 0 <= y < h -> m = b + x * s ->
  let p := b + y * (w * 2) + x * s in 0 <= p < w * h * 2 /\ p / (2 * w) = y /\ p mod (2 * w) = m.
Proof.
  intros Hs Hb Hx Hx0 Hy Hm p. assert (0 <= b + x * s) by nia. assert (Ep : p = 2 * w * y + m) by (unfold p; rewrite Hm; ring).
  split; [nia |]. split; symmetry; [apply (Z.div_unique _ _ _ m) | apply (Z.mod_unique _ _ y)]; (left; lia) || exact Ep.
Qed.

Lemma split_422 w h p : 0 <= w -> 0 <= h -> 0 <= p < w * h * 2 ->
  let y := p / (2 * w) in let k := p mod (2 * w) in 0 <= k < 2 * w /\ 0 <= y < h /\ p = y * (w * 2) + k.
Proof.
  intros Hw Hh Hp y k. assert (Hw' : 0 < w) by nia. pose proof (Z.div_mod p (2 * w) ltac:(lia)) as E. pose proof (Z.mod_pos_bound p (2 * w) ltac:(lia)) as Hk. fold y k in E, Hk.
  split; [exact Hk |]. split; [| lia]. split; [apply Z.div_pos; lia |]. apply Z.div_lt_upper_bound; nia.
Qed.

Lemma comp_of g l n v : ng_views g = Ok l -> ng_comp g n = Ok v <-> exists i, cindex (arrangement_of (g_fmt g)) n = Some i /\ nth_error l i = Some v.
Proof.
  intros E. unfold ng_comp, ng_view. rewrite E. cbn [rbind]. destruct (cindex _ n) as [i |].
  - split.
    + intros H. exists i. split; [reflexivity |]. destruct (nth_error l i); [injection H as ->; reflexivity | discriminate].
    + intros (i' & [= <-] & ->). reflexivity.
  - split; [discriminate | intros (i & H & _); discriminate].
Qed.

Definition no_chroma (n : cname) : Prop := match n with CU | CV => False | _ => True end.

Lemma laid_444 g slots n L w h : 0 < n -> 0 <= w -> 0 <= h -> g_w g = w -> g_len g = w * h * n -> zlen slots = n ->
  (forall m v, ng_comp g m = Ok v <-> exists b, In (m, b) L /\ v = mkView b n (w * n) w h) ->
  (forall b m j, 0 <= b < n -> nth_error slots (Z.to_nat b) = Some (Some (m, j)) <-> j = 0 /\ In (m, b) L) ->
  (forall m b, In (m, b) L -> 0 <= b < n /\ no_chroma m) ->
  laid_out g (1, slots).
Proof.
  intros Hn Hw Hh Ew El Es Hc Hs Hl. unfold laid_out. rewrite Ew, El.
  assert (EL : w * n / 1 = w * n) by apply Z.div_1_r. split.
  - intros m v x y Ev Hx Hy. apply Hc in Ev. destruct Ev as (b & Hin & ->). unfold v_addr. cbn [v_w v_h v_base v_sx v_sy] in *.
    destruct (Hl m b Hin) as [Hb Hm]. destruct (place_444 n w h b x y Hn Hb Hx Hy) as (Hp & E1 & E2 & E3). split; [exact Hp |].
    unfold item_at. rewrite Es, EL, E1, E2, E3. rewrite (proj2 (Hs b m 0 Hb) (conj eq_refl Hin)).
    destruct m; cbn [no_chroma] in Hm; try (destruct Hm); repeat f_equal; lia.
  - intros m x y p Hp E. unfold item_at in E. rewrite Es, EL in E. destruct (split_444 n w h p Hn Hw Hh Hp) as (Hb & Hk & Hy & Ep).
    set (k := p mod (w * n)) in *. destruct (nth_error slots (Z.to_nat (k mod n))) as [[[m' j] |] |] eqn:En; try discriminate.
    apply Hs in En; [| exact Hb]. destruct En as [-> Hin]. destruct (Hl m' _ Hin) as [_ Hm].
    assert (E' : (m', k / n * 1 + 0, p / (w * n)) = (m, x, y)).
    { destruct m'; cbn [no_chroma] in Hm; try (destruct Hm); injection E as E1 E2 E3; rewrite E1, E2, E3; reflexivity. }
    injection E' as <- <- <-. exists (mkView (k mod n) n (w * n) w h). split; [apply Hc; exists (k mod n); split; [exact Hin | reflexivity] |].
    unfold v_addr. cbn [v_w v_h v_base v_sx v_sy]. replace (k / n * 1 + 0) with (k / n) by ring. split; [exact Hk |]. split; [exact Hy |]. symmetry. exact Ep.
Qed.

Lemma laid_422 g slots b0 b1 b2 w h : 0 <= w -> 0 <= h -> g_w g = w -> g_len g = w * h * 2 ->
  (b0 = 1 /\ b1 = 0 /\ b2 = 2 /\ slots = [Some (CU, 0); Some (CY, 0); Some (CV, 0); Some (CY, 1)]) \/ (b0 = 0 /\ b1 = 1 /\ b2 = 3 /\ slots = [Some (CY, 0); Some (CU, 0); Some (CY, 1); Some (CV, 0)]) ->
  arrangement_of (g_fmt g) = OYUV -> ng_views g = Ok [mkView b0 2 (w * 2) w h; mkView b1 4 (w * 2) (w / 2) h; mkView b2 4 (w * 2) (w / 2) h] ->
  laid_out g (2, slots).
Proof.
  intros Hw Hh Ew El Hb Ha Hv. unfold laid_out. rewrite Ew, El.
  assert (Es : zlen slots = 4) by (destruct Hb as [(_ & _ & _ & ->) | (_ & _ & _ & ->)]; reflexivity).
  assert (EL : w * 4 / 2 = 2 * w) by lia. split.
  - intros m v x y Ev Hx Hy. apply (comp_of g _ m v Hv) in Ev. destruct Ev as (i & Hi & Ei). rewrite Ha in Hi. apply three_views in Ei.
    assert (Hcase : (m = CY /\ v = mkView b0 2 (w * 2) w h) \/ (m = CU /\ v = mkView b1 4 (w * 2) (w / 2) h) \/ (m = CV /\ v = mkView b2 4 (w * 2) (w / 2) h)).
    { destruct m; cbn [cindex] in Hi; try discriminate; injection Hi as <-; destruct Ei as [[E ->] | [[E ->] | [E ->]]]; try discriminate E; tauto. }
    clear Hi Ei.
    destruct Hcase as [[-> ->] | [[-> ->] | [-> ->]]]; unfold v_addr; cbn [v_w v_h v_base v_sx v_sy] in *.
    + destruct (place_422 w h b0 2 (b0 + x * 2) x y) as (Hp & E1 & E2); try lia. split; [exact Hp |]. unfold item_at. rewrite Es, EL, E1, E2.
      assert (Hpar : x mod 2 = 0 \/ x mod 2 = 1) by lia.
      destruct Hb as [(-> & _ & _ & ->) | (-> & _ & _ & ->)]; destruct Hpar as [Hpar | Hpar];
        [replace ((1 + x * 2) mod 4) with 1 by lia | replace ((1 + x * 2) mod 4) with 3 by lia | replace ((0 + x * 2) mod 4) with 0 by lia | replace ((0 + x * 2) mod 4) with 2 by lia];
        match goal with |- context [Z.to_nat ?c] => let v := eval vm_compute in (Z.to_nat c) in change (Z.to_nat c) with v end;
        cbn [nth_error]; repeat f_equal; lia.
    + destruct (place_422 w h b1 4 (b1 + x * 4) x y) as (Hp & E1 & E2); try lia. split; [exact Hp |]. unfold item_at. rewrite Es, EL, E1, E2.
      destruct Hb as [(_ & -> & _ & ->) | (_ & -> & _ & ->)]; [replace ((0 + x * 4) mod 4) with 0 by lia; replace ((0 + x * 4) / 4) with x by lia | replace ((1 + x * 4) mod 4) with 1 by lia; replace ((1 + x * 4) / 4) with x by lia];
        match goal with |- context [Z.to_nat ?c] => let v := eval vm_compute in (Z.to_nat c) in change (Z.to_nat c) with v end;
        cbn [nth_error]; destruct (Z.ltb_spec x (w / 2)); try lia; reflexivity.
    + destruct (place_422 w h b2 4 (b2 + x * 4) x y) as (Hp & E1 & E2); try lia. split; [exact Hp |]. unfold item_at. rewrite Es, EL, E1, E2.
      destruct Hb as [(_ & _ & -> & ->) | (_ & _ & -> & ->)]; [replace ((2 + x * 4) mod 4) with 2 by lia; replace ((2 + x * 4) / 4) with x by lia | replace ((3 + x * 4) mod 4) with 3 by lia; replace ((3 + x * 4) / 4) with x by lia];
        match goal with |- context [Z.to_nat ?c] => let v := eval vm_compute in (Z.to_nat c) in change (Z.to_nat c) with v end;
        cbn [nth_error]; destruct (Z.ltb_spec x (w / 2)); try lia; reflexivity.
  - intros m x y p Hp E. unfold item_at in E. rewrite Es, EL in E. destruct (split_422 w h p Hw Hh Hp) as (Hk & Hy & Ep).
    set (k := p mod (2 * w)) in *. set (y0 := p / (2 * w)) in *. clearbody y0.
    assert (Hcy : ng_comp g CY = Ok (mkView b0 2 (w * 2) w h)) by (apply (comp_of g _ CY _ Hv); exists 0%nat; rewrite Ha; split; reflexivity).
    assert (Hcu : ng_comp g CU = Ok (mkView b1 4 (w * 2) (w / 2) h)) by (apply (comp_of g _ CU _ Hv); exists 1%nat; rewrite Ha; split; reflexivity).
    assert (Hcv : ng_comp g CV = Ok (mkView b2 4 (w * 2) (w / 2) h)) by (apply (comp_of g _ CV _ Hv); exists 2%nat; rewrite Ha; split; reflexivity).
    clearbody k. assert (H4 : k mod 4 = 0 \/ k mod 4 = 1 \/ k mod 4 = 2 \/ k mod 4 = 3) by lia.
    destruct Hb as [(B0 & B1 & B2 & ->) | (B0 & B1 & B2 & ->)]; destruct H4 as [H4 | [H4 | [H4 | H4]]]; rewrite H4 in E;
      match type of E with context [Z.to_nat ?c] => let v := eval vm_compute in (Z.to_nat c) in change (Z.to_nat c) with v in E end;
      cbn [nth_error] in E; try (destruct (Z.ltb_spec (k / 4) (w / 2)); [| discriminate]); injection E as <- <- <-;
      eexists; (split; [eassumption |]); unfold v_addr; cbn [v_w v_h v_base v_sx v_sy]; (split; [lia |]); (split; [lia |]); subst p; lia.
Qed.

Lemma fmt_444 f item vs w h n b0 b1 b2 n0 n1 n2 slots : In (f, item, vs) packed_views -> 0 <= w -> 0 <= h -> 0 < n -> 0 < item -> zlen slots = n ->
  vs w h = [mkView b0 n (w * n) w h; mkView b1 n (w * n) w h; mkView b2 n (w * n) w h] -> size_for_format f w h = w * h * n * item ->
  (forall m i, cindex (arrangement_of f) m = Some i <-> (m = n0 /\ i = 0%nat) \/ (m = n1 /\ i = 1%nat) \/ (m = n2 /\ i = 2%nat)) ->
  (forall b m j, 0 <= b < n -> nth_error slots (Z.to_nat b) = Some (Some (m, j)) <-> j = 0 /\ In (m, b) [(n0, b0); (n1, b1); (n2, b2)]) ->
  (forall m b, In (m, b) [(n0, b0); (n1, b1); (n2, b2)] -> 0 <= b < n /\ no_chroma m) ->
  exists g, ng_new f w h = Ok g /\ g_fmt g = f /\ g_w g = w /\ g_h g = h /\ laid_out g (1, slots).
Proof.
  intros Hp Hw Hh Hn Hi Es Ev Sz Hc Hs Hl.
  destruct (packed_new f item vs w h Hp Hw Hh) as (g & Eg & F & W & H & I & Len & _ & V). exists g. split; [exact Eg |]. split; [exact F |]. split; [exact W |]. split; [exact H |].
  apply (laid_444 g slots n [(n0, b0); (n1, b1); (n2, b2)] w h); try assumption; [rewrite Len, Sz; apply Z.div_mul; lia |].
  intros m v. rewrite Ev in V. rewrite (comp_of g _ m v V). rewrite F. split.
  - intros (i & Hm & Hv). apply Hc in Hm. apply three_views in Hv.
    destruct Hm as [[-> ->] | [[-> ->] | [-> ->]]]; destruct Hv as [[E ->] | [[E ->] | [E ->]]]; try discriminate E; eexists; (split; [| reflexivity]); cbn [In]; tauto.
  - intros (b & Hin & ->). cbn [In] in Hin. destruct Hin as [[= <- <-] | [[= <- <-] | [[= <- <-] | []]]]; [exists 0%nat | exists 1%nat | exists 2%nat]; (split; [apply Hc; tauto | reflexivity]).
Qed.

Lemma fmt_422 f item vs w h b0 b1 b2 slots : In (f, item, vs) packed_views -> 0 <= w -> 0 <= h -> 0 < item -> arrangement_of f = OYUV ->
  (b0 = 1 /\ b1 = 0 /\ b2 = 2 /\ slots = [Some (CU, 0); Some (CY, 0); Some (CV, 0); Some (CY, 1)]) \/ (b0 = 0 /\ b1 = 1 /\ b2 = 3 /\ slots = [Some (CY, 0); Some (CU, 0); Some (CY, 1); Some (CV, 0)]) ->
  vs w h = [mkView b0 2 (w * 2) w h; mkView b1 4 (w * 2) (w / 2) h; mkView b2 4 (w * 2) (w / 2) h] -> size_for_format f w h = w * h * 2 * item ->
  exists g, ng_new f w h = Ok g /\ g_fmt g = f /\ g_w g = w /\ g_h g = h /\ laid_out g (2, slots).
Proof.
  intros Hp Hw Hh Hi Ha Hb Ev Sz.
  destruct (packed_new f item vs w h Hp Hw Hh) as (g & Eg & F & W & H & I & Len & _ & V). exists g. split; [exact Eg |]. split; [exact F |]. split; [exact W |]. split; [exact H |].
  apply (laid_422 g slots b0 b1 b2 w h); try assumption; [rewrite Len, Sz; apply Z.div_mul; lia | rewrite F; exact Ha | rewrite <- Ev; exact V].
Qed.

Ltac fmt_size := unfold size_for_format; repeat match goal with |- context [if ?b then _ else _] => let x := eval vm_compute in b in change b with x; cbv iota end; ring.
Ltac slot_at := intros b m j Hb;
  let H := fresh in assert (H : b = 0 \/ b = 1 \/ b = 2 \/ b = 3) by lia;
  repeat (destruct H as [H | H]); subst b; try lia;
  match goal with |- context [Z.to_nat ?c] => let v := eval vm_compute in (Z.to_nat c) in change (Z.to_nat c) with v end; cbn [nth_error In]; (split;
  [ intros E; first [discriminate E | injection E as <- <-; split; [reflexivity | tauto]]
  | intros [-> E]; repeat (destruct E as [E | E]; [first [discriminate E | injection E as <-; reflexivity] |]); destruct E ]).
Ltac order_at := intros m i; match goal with |- context [arrangement_of ?f] => let v := eval vm_compute in (arrangement_of f) in change (arrangement_of f) with v end;
  destruct m; cbn [cindex]; (split; [intros E; try discriminate E; injection E as <-; tauto | intros [[E1 E2] | [[E1 E2] | [E1 E2]]]; try discriminate E1; rewrite E2; reflexivity]).
Ltac base_at := intros m b Hb; cbn [In] in Hb; repeat (destruct Hb as [Hb | Hb]; [injection Hb as <- <-; split; [lia | exact I] |]); destruct Hb.

Ltac in_packed := unfold packed_views; cbn [In]; repeat (first [left; reflexivity | right]).
Ltac view_at := cbv beta; unfold views_444; rewrite !Z.div_1_r; reflexivity.

Lemma packed_layout f grp w h : In (f, grp) groups -> 0 <= w -> 0 <= h ->
  exists g, ng_new f w h = Ok g /\ g_fmt g = f /\ g_w g = w /\ g_h g = h /\ laid_out g grp.
Proof.
  intros Hin Hw Hh. unfold groups in Hin. cbv zeta in Hin. cbn [In] in Hin.
  repeat (destruct Hin as [Hin | Hin]; [injection Hin as <- <- |]); [.. | destruct Hin].
  1, 3: eapply fmt_422; [in_packed | exact Hw | exact Hh | lia | vm_compute; reflexivity | first [left; repeat split; reflexivity | right; repeat split; reflexivity]
    | cbv beta; unfold views_422; rewrite !Z.div_1_r; reflexivity | fmt_size].
  1: eapply fmt_422; [in_packed | exact Hw | exact Hh | lia | vm_compute; reflexivity | first [left; repeat split; reflexivity | right; repeat split; reflexivity]
    | cbv beta; unfold views_422; change (2 * 2 / 2) with 2; change (2 * 4 / 2) with 4; replace (w * 4 / 2) with (w * 2) by lia; reflexivity | fmt_size].
  1: eapply (fmt_444 _ 1 _ w h 3 0 1 2 CR CG CB); [in_packed | exact Hw | exact Hh | lia | lia | reflexivity | view_at | fmt_size | order_at | slot_at | base_at].
  1, 2: eapply (fmt_444 _ 1 _ w h 4 0 1 2 CR CG CB); [in_packed | exact Hw | exact Hh | lia | lia | reflexivity | view_at | fmt_size | order_at | slot_at | base_at].
  1, 2: eapply (fmt_444 _ 1 _ w h 4 1 2 3 CR CG CB); [in_packed | exact Hw | exact Hh | lia | lia | reflexivity | view_at | fmt_size | order_at | slot_at | base_at].
  1: eapply (fmt_444 _ 1 _ w h 4 0 1 2 CB CG CR); [in_packed | exact Hw | exact Hh | lia | lia | reflexivity | view_at | fmt_size | order_at | slot_at | base_at].
  1, 2: eapply (fmt_444 _ 1 _ w h 4 1 2 3 CB CG CR); [in_packed | exact Hw | exact Hh | lia | lia | reflexivity | view_at | fmt_size | order_at | slot_at | base_at].
Qed.

Lemma plane_at b w h x y base L : 0 < b -> 0 <= y * w + x < w * h -> w * h <= L ->
  (base + y * w + x * 1) * b = base * b + y * (w * b) + x * b /\ base * b <= (base + y * w + x * 1) * b /\ (base + y * w + x * 1) * b + b <= base * b + L * b.
Proof. intros Hb Hxy HL. split; [ring |]. split; nia. Qed.

(** Planar formats: the arrays are the planes. *)
Lemma planar_layout f hs vs b w h : In (f, Planar hs vs b) pictures -> 0 <= w -> 0 <= h ->
  exists g, ng_new f w h = Ok g /\ g_item g = b /\ g_len g * b = size_for_format f w h /\
    forall i c, nth_error (components_for_format f w h) i = Some c -> exists v, ng_view g i = Ok v /\ v_w v = vc_width c /\ v_h v = vc_height c /\
      forall x y, 0 <= x < v_w v -> 0 <= y < v_h v ->
        v_addr v x y * b = vc_offset c + y * vc_stride c + x * b /\ vc_offset c <= v_addr v x y * b /\ v_addr v x y * b + b <= vc_offset c + vc_length c.
Proof.
  intros Hin Hw Hh. destruct (pictures_planar f hs vs b Hin) as (Hp & Hb & Hhs & Hvs & Hb0).
  pose proof (views_planar f hs vs b w h Hin Hw Hh) as Hv. pose proof (size_nonneg f w h Hw Hh) as Hs.
  destruct (planar_shape f hs vs b w h Hin Hw Hh) as (o1 & o2 & o3 & E).
  pose proof (components_tile f w h Hw Hh) as Ht. rewrite E in Ht. cbn [tiles vc_offset vc_length] in Ht. destruct Ht as (O1 & _ & O2 & _ & O3 & _ & Sz).
  assert (H1 : 0 < hs) by (clear - Hhs; lia). assert (H2 : 0 < vs) by (clear - Hvs; lia).
  pose proof (floor_mul w h hs vs H1 H2 Hw Hh) as Hf. assert (Hc : 0 <= w / hs /\ 0 <= h / vs) by (split; apply Z.div_pos; assumption).
  set (L := w * h / (hs * vs)) in *.
  assert (Sz' : size_for_format f w h = (w * h + L + L) * b) by (rewrite <- Sz; ring).
  assert (Hm : size_for_format f w h mod b = 0) by (rewrite Sz'; apply Z.mod_mul; lia).
  assert (Hn : exists g, ng_new f w h = Ok g /\ g_item g = b /\ g_len g * b = size_for_format f w h /\ ng_views g = Ok (planar_views hs vs w h)).
  { unfold ng_new, new_video. cbv zeta. destruct (Z.ltb_spec (size_for_format f w h) 0); [lia |]. cbn [rbind fst snd].
    unfold np_itemsize. rewrite Hp, Hb. cbn [rbind]. rewrite zlen_zeros' by lia. rewrite Hm. cbn [Z.eqb negb]. rewrite Hv. cbn [rbind].
    eexists. split; [reflexivity |]. unfold ng_views. cbn [g_fmt g_w g_h g_item g_len g_data]. rewrite Hv. split; [reflexivity |]. split; [| reflexivity].
    rewrite Sz', Z.div_mul by lia. reflexivity. }
  destruct Hn as (g & Eg & I & Len & V). exists g. split; [exact Eg |]. split; [exact I |]. split; [exact Len |].
  assert (Hbd : forall a n x y, 0 <= x < a -> 0 <= y < n -> 0 <= y * a + x < a * n) by (intros; nia).
  intros i c Hi. rewrite E in Hi. unfold ng_view. rewrite V. cbn [rbind]. unfold planar_views.
  destruct i as [| [| [| i]]]; cbn [nth_error] in Hi |- *; [| | | destruct i; discriminate]; injection Hi as <-; eexists; (split; [reflexivity |]);
    unfold v_addr; cbn [v_base v_sx v_sy v_w v_h vc_width vc_height vc_offset vc_stride vc_length]; (split; [reflexivity |]); (split; [reflexivity |]); intros x y Hx Hy;
    pose proof (Hbd _ _ _ _ Hx Hy) as Hxy; clear Hbd; fold L.
  - rewrite O1. pose proof (plane_at b w h x y 0 (w * h) Hb0 Hxy (Z.le_refl _)) as Hp1. rewrite Z.mul_0_l in Hp1. exact Hp1.
  - rewrite O2. replace (0 + w * h * b) with (w * h * b) by ring. exact (plane_at b (w / hs) (h / vs) x y (w * h) L Hb0 Hxy Hf).
  - rewrite O3. replace (0 + w * h * b + L * b) with ((w * h + L) * b) by ring. exact (plane_at b (w / hs) (h / vs) x y (w * h + L) L Hb0 Hxy Hf).
Qed.
