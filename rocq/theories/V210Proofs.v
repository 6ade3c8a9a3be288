(** Proofs about v210. *)
From Coq Require Import Lia ZifyBool ZifyNat.
From Verif Require Import Base BaseProofs CogEnums VideoLayout LayoutProofs NpView NpViewProofs NpSpec NpGrainProofs NpConvert NpConvSpec NpConvProofs.
Ltac Zify.zify_post_hook ::= Z.div_mod_to_equations.

Definition k10 : kind := yuv422 10.

(** The places of samples, inverted. *)
Definition v210_inv (j f : Z) : cname * Z :=
  let e := nth (Z.to_nat (3 * (j mod 4) + f)) [(CU, 0); (CY, 0); (CV, 0); (CY, 1); (CU, 1); (CY, 2); (CV, 1); (CY, 3); (CU, 2); (CY, 4); (CV, 2); (CY, 5)] (CY, 0) in
  match fst e with CY => (CY, 6 * (j / 4) + snd e) | n => (n, 3 * (j / 4) + snd e) end.

Lemma mod_cases3 x : {x mod 3 = 0} + {x mod 3 = 1} + {x mod 3 = 2}.
Proof. destruct (Z.eq_dec (x mod 3) 0); [left; left; assumption |]. destruct (Z.eq_dec (x mod 3) 1); [left; right; assumption |]. right. lia. Qed.

Ltac tonat := repeat match goal with |- context [Z.to_nat ?t] => let v := eval vm_compute in (Z.to_nat t) in progress change (Z.to_nat t) with v end.

Lemma cases6 r : 0 <= r < 6 -> r = 0 \/ r = 1 \/ r = 2 \/ r = 3 \/ r = 4 \/ r = 5.
Proof. lia. Qed.
Lemma cases3 r : 0 <= r < 3 -> r = 0 \/ r = 1 \/ r = 2.
Proof. lia. Qed.
Lemma cases4 r : 0 <= r < 4 -> r = 0 \/ r = 1 \/ r = 2 \/ r = 3.
Proof. lia. Qed.

Lemma place_y q r : 0 <= r < 6 -> v210_place CY (6 * q + r) =
  let e := nth (Z.to_nat r) [(0, 1); (1, 0); (1, 2); (2, 1); (3, 0); (3, 2)] (0, 0) in (4 * q + fst e, snd e).
Proof.
  intros Hr. unfold v210_place. replace ((6 * q + r) mod 6) with r by lia. replace ((6 * q + r) / 6) with q by lia. reflexivity.
Qed.
Lemma place_u q r : 0 <= r < 3 -> v210_place CU (3 * q + r) = let e := nth (Z.to_nat r) [(0, 0); (1, 1); (2, 2)] (0, 0) in (4 * q + fst e, snd e).
Proof. intros Hr. unfold v210_place. replace ((3 * q + r) mod 3) with r by lia. replace ((3 * q + r) / 3) with q by lia. reflexivity. Qed.
Lemma place_v q r : 0 <= r < 3 -> v210_place CV (3 * q + r) = let e := nth (Z.to_nat r) [(0, 2); (2, 0); (3, 1)] (0, 0) in (4 * q + fst e, snd e).
Proof. intros Hr. unfold v210_place. replace ((3 * q + r) mod 3) with r by lia. replace ((3 * q + r) / 3) with q by lia. reflexivity. Qed.
Lemma inv_group q r f : 0 <= r < 4 -> v210_inv (4 * q + r) f =
  let e := nth (Z.to_nat (3 * r + f)) [(CU, 0); (CY, 0); (CV, 0); (CY, 1); (CU, 1); (CY, 2); (CV, 1); (CY, 3); (CU, 2); (CY, 4); (CV, 2); (CY, 5)] (CY, 0) in
  match fst e with CY => (CY, 6 * q + snd e) | n => (n, 3 * q + snd e) end.
Proof. intros Hr. unfold v210_inv. replace ((4 * q + r) mod 4) with r by lia. replace ((4 * q + r) / 4) with q by lia. reflexivity. Qed.

Lemma place_inv j f : 0 <= f < 3 -> v210_place (fst (v210_inv j f)) (snd (v210_inv j f)) = (j, f) /\ In (fst (v210_inv j f)) [CY; CU; CV] /\ (0 <= j -> 0 <= snd (v210_inv j f)).
Proof.
  intros Hf. assert (Ej : j = 4 * (j / 4) + j mod 4) by (apply Z.div_mod; lia). assert (Hr : 0 <= j mod 4 < 4) by (apply Z.mod_pos_bound; lia).
  assert (Hq : 0 <= j -> 0 <= j / 4) by (intros; lia).
  revert Ej Hr Hq. generalize (j / 4) (j mod 4). intros q r -> Hr Hq. rewrite inv_group by exact Hr.
  destruct (cases4 r Hr) as [-> | [-> | [-> | ->]]]; destruct (cases3 f Hf) as [-> | [-> | ->]]; tonat; cbn - [v210_place Z.mul Z.add];
    (split; [first [rewrite place_y by lia | rewrite place_u by lia | rewrite place_v by lia]; tonat; cbn - [Z.mul Z.add]; f_equal; lia |]; split; [tauto | lia]).
Qed.

Lemma inv_place n x : In n [CY; CU; CV] -> v210_inv (fst (v210_place n x)) (snd (v210_place n x)) = (n, x) /\ 0 <= snd (v210_place n x) < 3 /\ (0 <= x -> 0 <= fst (v210_place n x)).
Proof.
  intros Hn. destruct Hn as [<- | [<- | [<- | []]]].
  - assert (Ej : x = 6 * (x / 6) + x mod 6) by (apply Z.div_mod; lia). assert (Hr : 0 <= x mod 6 < 6) by (apply Z.mod_pos_bound; lia).
    assert (Hq : 0 <= x -> 0 <= x / 6) by (intros; lia).
    revert Ej Hr Hq. generalize (x / 6) (x mod 6). intros q r -> Hr Hq. rewrite place_y by exact Hr.
    destruct (cases6 r Hr) as [-> | [-> | [-> | [-> | [-> | ->]]]]]; tonat; cbn [nth fst snd]; cbv zeta; cbn [nth fst snd]; rewrite inv_group by lia; tonat; cbn - [Z.mul Z.add]; split; [reflexivity | lia | reflexivity | lia | reflexivity | lia | reflexivity | lia | reflexivity | lia | reflexivity | lia].
  - assert (Ej : x = 3 * (x / 3) + x mod 3) by (apply Z.div_mod; lia). assert (Hr : 0 <= x mod 3 < 3) by (apply Z.mod_pos_bound; lia).
    assert (Hq : 0 <= x -> 0 <= x / 3) by (intros; lia).
    revert Ej Hr Hq. generalize (x / 3) (x mod 3). intros q r -> Hr Hq. rewrite place_u by exact Hr.
    destruct (cases3 r Hr) as [-> | [-> | ->]]; tonat; cbn [nth fst snd]; cbv zeta; cbn [nth fst snd]; rewrite inv_group by lia; tonat; cbn - [Z.mul Z.add]; split; [reflexivity | lia | reflexivity | lia | reflexivity | lia].
  - assert (Ej : x = 3 * (x / 3) + x mod 3) by (apply Z.div_mod; lia). assert (Hr : 0 <= x mod 3 < 3) by (apply Z.mod_pos_bound; lia).
    assert (Hq : 0 <= x -> 0 <= x / 3) by (intros; lia).
    revert Ej Hr Hq. generalize (x / 3) (x mod 3). intros q r -> Hr Hq. rewrite place_v by exact Hr.
    destruct (cases3 r Hr) as [-> | [-> | ->]]; tonat; cbn [nth fst snd]; cbv zeta; cbn [nth fst snd]; rewrite inv_group by lia; tonat; cbn - [Z.mul Z.add]; split; [reflexivity | lia | reflexivity | lia | reflexivity | lia].
Qed.

Lemma v210_size w h : 0 <= w -> 0 <= h -> size_for_format v210 w h = h * v210_words w * 4.
Proof. intros Hw Hh. change (size_for_format v210 w h) with (h * (((w + 47) / 48) * 128)). unfold v210_words. ring. Qed.

Lemma v210_new w h : 0 <= w -> 0 <= h -> exists g, ng_new v210 w h = Ok g /\ v210_ok g /\ g_w g = w /\ g_h g = h /\ g_item g = 4 /\ g_len g = h * v210_words w.
Proof.
  intros Hw Hh. pose proof (size_nonneg v210 w h Hw Hh) as Hs.
  unfold ng_new, new_video. cbv zeta. destruct (Z.ltb_spec (size_for_format v210 w h) 0); [lia |]. cbn [rbind fst snd].
  change (np_itemsize v210) with (Ok 4). cbn [rbind]. rewrite zlen_zeros' by lia. rewrite v210_size by assumption.
  rewrite Z.mod_mul by lia. cbn [Z.eqb negb]. rewrite Z.div_mul by lia.
  assert (Ev : views_of v210 4 (components_for_format v210 w h) = Ok []) by reflexivity. rewrite Ev. cbn [rbind].
  eexists. split; [reflexivity |]. cbn [g_w g_h g_item g_len]. split; [| tauto].
  split; [reflexivity |]. split; [exact Hw |]. split; [exact Hh |]. cbn [g_fmt g_w g_h g_item g_len g_data]. split; [| intros; lia].
  unfold ng_new, new_video. cbv zeta. destruct (Z.ltb_spec (size_for_format v210 w h) 0); [lia |]. cbn [rbind fst snd].
  change (np_itemsize v210) with (Ok 4). cbn [rbind]. rewrite zlen_zeros' by lia. rewrite v210_size by assumption.
  rewrite Z.mod_mul by lia. cbn [Z.eqb negb]. rewrite Z.div_mul by lia. rewrite Ev. cbn [rbind]. eexists. split; [reflexivity |]. cbn [g_item g_len]. tauto.
Qed.

Lemma v210_shape g : v210_ok g -> 0 <= g_w g /\ 0 <= g_h g /\ g_item g = 4 /\ g_len g = g_h g * v210_words (g_w g) /\
  forall i, 0 <= i < g_len g -> 0 <= g_data g i < 2 ^ 32.
Proof.
  intros [Hf (Hw & Hh & (g0 & E & Ei & El) & Hr)]. rewrite Hf in E. destruct (v210_new (g_w g) (g_h g) Hw Hh) as (g1 & E1 & _ & _ & _ & I1 & L1).
  rewrite E in E1. injection E1 as <-. rewrite Ei, I1 in Hr. split; [exact Hw |]. split; [exact Hh |]. split; [congruence |]. split; [congruence |]. exact Hr.
Qed.

Lemma part_bits d sh : 0 <= sh -> Z.land (Z.shiftr d sh) 0x3FF = d / 2 ^ sh mod 2 ^ 10.
Proof. intros H. rewrite Z.shiftr_div_pow2 by exact H. change 0x3FF with (Z.ones 10). apply Z.land_ones. lia. Qed.

Lemma mod10_small z b : 10 <= b -> (z mod 2 ^ 10) mod 2 ^ b = z mod 2 ^ 10.
Proof.
  intros Hb. assert (0 <= z mod 2 ^ 10 < 2 ^ 10) by (apply Z.mod_pos_bound; lia). assert (2 ^ 10 <= 2 ^ b) by (apply Z.pow_le_mono_r; lia).
  apply Z.mod_small. lia.
Qed.

Lemma comp10 n w h : In n [CY; CU; CV] -> comp_w k10 n w = (if is_chroma n then w / 2 else w) /\ comp_h k10 n h = h.
Proof. intros [<- | [<- | [<- | []]]]; cbn [comp_w comp_h is_chroma]; change (k_hs k10) with 2; change (k_vs k10) with 1; rewrite ?Z.div_1_r; tauto. Qed.

Definition cname_eqb (a b : cname) : bool :=
  match a, b with CY, CY | CU, CU | CV, CV | CR, CR | CG, CG | CB, CB => true | _, _ => false end.

Lemma cname_eqb_spec a b : reflect (a = b) (cname_eqb a b).
Proof. destruct a, b; constructor; congruence. Qed.

(** Writing every third sample of a component from a slice of the words. *)
Lemma put_from g n k d w h W start step count : g_w g = w -> g_h g = h -> has_kind g k10 -> In n [CY; CU; CV] -> 0 <= k < 3 -> 0 <= start -> 0 < step -> 0 <= W ->
  let cw := if is_chroma n then w / 2 else w in
  slice_count cw k 3 = count -> count <= slice_count W start step ->
  exists g', rbind (ng_comp g n) (fun o => ng_write g (v_slice_x o k 3) (v_read d (v_first (v_slice_x (local_view W h) start step) count))) = Ok g' /\
    same_shape g g' /\ has_kind g' k10 /\
    (forall n' x y, In n' [CY; CU; CV] -> in_comp k10 g n' x y ->
      sample g' n' x y = if cname_eqb n' n && (x mod 3 =? k) then d (y * W + start + step * (x / 3)) mod 2 ^ (8 * g_item g) else sample g n' x y).
Proof.
  intros <- <- Hg Hn Hk Hst Hsp HW cw Hc Hle. destruct (comp_view g k10 n Hg Hn) as (_ & _ & v & _ & _ & _ & _ & Ev & Wv & Hv). rewrite Ev. cbn [rbind].
  destruct (comp10 n (g_w g) (g_h g) Hn) as [C1 C2]. fold cw in C1. rewrite C1 in Wv. rewrite C2 in Hv.
  set (u := v_slice_x v k 3). set (src := v_read _ _).
  assert (Hc0 : 0 <= slice_count W start step) by (unfold slice_count; destruct (start <? W) eqn:E; [apply Z.div_pos; lia | lia]).
  assert (Hu : part_of u v (fun x => k + 3 * x) (fun y => y)) by (apply part_slice_x; lia).
  assert (Wu : v_w u = count) by (unfold u, v_slice_x; cbn [v_w]; rewrite Wv; exact Hc).
  assert (Hu' : v_h u = g_h g) by (unfold u, v_slice_x; cbn [v_h]; exact Hv).
  destruct (write_comp g k10 n v u _ _ src Hg Hn Ev Hu) as (g' & E & S & K & P1 & P2).
  - unfold src, v_read, v_first, v_slice_x, local_view. cbn [a_w v_w]. rewrite Wu. lia.
  - unfold src, v_read, v_first, v_slice_x, local_view. cbn [a_h v_h]. rewrite Hu'. reflexivity.
  - exists g'. split; [exact E |]. split; [exact S |]. split; [exact K |].
    assert (Hiv : forall x y, in_comp k10 g n x y -> x mod 3 = k -> in_view u (x / 3) y /\ x = k + 3 * (x / 3)).
    { intros x y [Hx Hy] Hm. rewrite C1 in Hx. rewrite C2 in Hy. split; [| lia]. unfold in_view. rewrite Wu, Hu'. split; [| exact Hy].
      rewrite <- Hc. unfold slice_count. destruct (Z.ltb_spec k cw); lia. }
    intros n' x y Hn' Hxy. destruct (cname_eqb_spec n' n) as [-> | Hne]; cbn [andb].
    + destruct (Z.eqb_spec (x mod 3) k) as [Hm | Hm].
      * destruct (Hiv x y Hxy Hm) as [V Ex]. pose proof (P1 _ _ V) as Q. rewrite <- Ex in Q. rewrite Q. f_equal.
        unfold src, v_read, v_first, v_slice_x, local_view, v_addr. cbn [a_at v_base v_sx v_sy]. f_equal. ring.
      * apply P2; [exact Hn | exact (proj1 Hxy) | exact (proj2 Hxy) |]. right. intros x' y' _. left. lia.
    + apply P2; [exact Hn' | exact (proj1 Hxy) | exact (proj2 Hxy) |]. left. exact Hne.
Qed.

Lemma in_comp10_shape g g' n x y : same_shape g g' -> in_comp k10 g n x y -> in_comp k10 g' n x y.
Proof. intros S H. apply (in_comp_shape k10 g g' n x y S). exact H. Qed.

Lemma word_y x k : x mod 3 = k -> v210_place CY x =
  if k =? 0 then (2 * (x / 3), 1) else if k =? 1 then (1 + 2 * (x / 3), 0) else (1 + 2 * (x / 3), 2).
Proof.
  intros <-. assert (Ej : x = 6 * (x / 6) + x mod 6) by (apply Z.div_mod; lia). assert (Hr : 0 <= x mod 6 < 6) by (apply Z.mod_pos_bound; lia).
  revert Ej Hr. generalize (x / 6) (x mod 6). intros q r -> Hr. rewrite place_y by exact Hr.
  destruct (cases6 r Hr) as [-> | [-> | [-> | [-> | [-> | ->]]]]]; tonat; cbv zeta; cbn [nth fst snd].
  - replace ((6 * q + 0) mod 3) with 0 by lia. cbn [Z.eqb Pos.eqb]. apply f_equal2; [lia | reflexivity].
  - replace ((6 * q + 1) mod 3) with 1 by lia. cbn [Z.eqb Pos.eqb]. apply f_equal2; [lia | reflexivity].
  - replace ((6 * q + 2) mod 3) with 2 by lia. cbn [Z.eqb Pos.eqb]. apply f_equal2; [lia | reflexivity].
  - replace ((6 * q + 3) mod 3) with 0 by lia. cbn [Z.eqb Pos.eqb]. apply f_equal2; [lia | reflexivity].
  - replace ((6 * q + 4) mod 3) with 1 by lia. cbn [Z.eqb Pos.eqb]. apply f_equal2; [lia | reflexivity].
  - replace ((6 * q + 5) mod 3) with 2 by lia. cbn [Z.eqb Pos.eqb]. apply f_equal2; [lia | reflexivity].
Qed.

Lemma word_u x k : x mod 3 = k -> v210_place CU x = if k =? 0 then (4 * (x / 3), 0) else if k =? 1 then (1 + 4 * (x / 3), 1) else (2 + 4 * (x / 3), 2).
Proof.
  intros <-. unfold v210_place. destruct (mod_cases3 x) as [[-> | ->] | ->]; tonat; cbn [nth fst snd Z.eqb Pos.eqb]; (apply f_equal2; [ring | reflexivity]).
Qed.
Lemma word_v x k : x mod 3 = k -> v210_place CV x = if k =? 0 then (4 * (x / 3), 2) else if k =? 1 then (2 + 4 * (x / 3), 0) else (3 + 4 * (x / 3), 1).
Proof.
  intros <-. unfold v210_place. destruct (mod_cases3 x) as [[-> | ->] | ->]; tonat; cbn [nth fst snd Z.eqb Pos.eqb]; (apply f_equal2; [ring | reflexivity]).
Qed.

Lemma words_eq w : line_words w = v210_words w.
Proof. unfold line_words, v210_words. lia. Qed.

Lemma from_v210_spec gin gout : v210_ok gin -> has_kind gout k10 -> same_size gin gout ->
  exists g', from_v210 gin gout = Ok g' /\ same_shape gout g' /\ has_kind g' k10 /\
    forall n x y, In n [CY; CU; CV] -> in_comp k10 gout n x y -> sample g' n x y = v210_sample gin n x y.
Proof.
  intros Hin Hout [HW HH]. destruct (v210_shape gin Hin) as (Hw & Hh & Hit & Hlen & Hr).
  destruct (kind_depth gout k10 Hout) as [_ Hd]. change (k_depth k10) with 10 in Hd.
  unfold from_v210. cbv zeta. rewrite Hlen, Z.eqb_refl. cbn [negb].
  set (W := v210_words (g_w gin)) in *. assert (HW0 : 0 <= W /\ W = 32 * ((g_w gin + 47) / 48)) by (unfold W, v210_words; lia). destruct HW0 as [HW0 HWe].
  set (part := fun sh i => Z.land (Z.shiftr (g_data gin i) sh) 0x3FF).
  assert (Hcount : forall k, 0 <= k < 3 -> slice_count (g_w gin) k 3 = (g_w gin + (2 - k)) / 3 /\ slice_count (g_w gin / 2) k 3 = (g_w gin / 2 + (2 - k)) / 3).
  { intros k Hk. unfold slice_count. destruct (Z.ltb_spec k (g_w gin)), (Z.ltb_spec k (g_w gin / 2)); lia. }
  destruct (Hcount 0 ltac:(lia)) as [L0 C0]. destruct (Hcount 1 ltac:(lia)) as [L1 C1]. destruct (Hcount 2 ltac:(lia)) as [L2 C2]. clear Hcount.
  cbn [Z.sub] in L0, C0, L1, C1, L2, C2.
  assert (Hfit2 : forall s c, 0 <= s < 2 -> c <= (g_w gin + (2 - s)) / 3 -> c <= slice_count W s 2).
  { intros s c Hs Hc. unfold slice_count. destruct (Z.ltb_spec s W); lia. }
  assert (Hfit4 : forall s c, 0 <= s < 4 -> c <= (g_w gin / 2 + (if s <? 2 then 2 - s else 1)) / 3 -> (s = 3 -> c <= (g_w gin / 2 + 0) / 3) -> c <= slice_count W s 4).
  { intros s c Hs Hc Hc'. unfold slice_count. destruct (Z.ltb_spec s W), (Z.ltb_spec s 2); lia. }
  assert (F1 : ((g_w gin + 2) / 3) <= slice_count W 0 2) by (apply Hfit2; cbn [Z.ltb Z.compare Pos.compare Pos.compare_cont Z.sub Z.add Z.opp Z.pos_sub]; lia).
  assert (F2 : ((g_w gin + 1) / 3) <= slice_count W 1 2) by (apply Hfit2; cbn [Z.ltb Z.compare Pos.compare Pos.compare_cont Z.sub Z.add Z.opp Z.pos_sub]; lia).
  assert (F3 : ((g_w gin + 0) / 3) <= slice_count W 1 2) by (apply Hfit2; cbn [Z.ltb Z.compare Pos.compare Pos.compare_cont Z.sub Z.add Z.opp Z.pos_sub]; lia).
  assert (F4 : ((g_w gin / 2 + 2) / 3) <= slice_count W 0 4) by (apply Hfit4; cbn [Z.ltb Z.compare Pos.compare Pos.compare_cont Z.sub Z.add Z.opp Z.pos_sub]; lia).
  assert (F5 : ((g_w gin / 2 + 1) / 3) <= slice_count W 1 4) by (apply Hfit4; cbn [Z.ltb Z.compare Pos.compare Pos.compare_cont Z.sub Z.add Z.opp Z.pos_sub]; lia).
  assert (F6 : ((g_w gin / 2 + 0) / 3) <= slice_count W 2 4) by (apply Hfit4; cbn [Z.ltb Z.compare Pos.compare Pos.compare_cont Z.sub Z.add Z.opp Z.pos_sub]; lia).
  assert (F7 : ((g_w gin / 2 + 2) / 3) <= slice_count W 0 4) by (apply Hfit4; cbn [Z.ltb Z.compare Pos.compare Pos.compare_cont Z.sub Z.add Z.opp Z.pos_sub]; lia).
  assert (F8 : ((g_w gin / 2 + 1) / 3) <= slice_count W 2 4) by (apply Hfit4; cbn [Z.ltb Z.compare Pos.compare Pos.compare_cont Z.sub Z.add Z.opp Z.pos_sub]; lia).
  assert (F9 : ((g_w gin / 2 + 0) / 3) <= slice_count W 3 4) by (apply Hfit4; cbn [Z.ltb Z.compare Pos.compare Pos.compare_cont Z.sub Z.add Z.opp Z.pos_sub]; lia).
  clear Hfit2 Hfit4.
  assert (HB : 10 <= 8 * g_item gout) by lia. clear Hlen Hr Hd.
  assert (HWo : g_w gout = g_w gin) by congruence. assert (HHo : g_h gout = g_h gin) by congruence.
  destruct (put_from gout CY 0 (part 10) (g_w gin) (g_h gin) W 0 2 ((g_w gin + 2) / 3) HWo HHo Hout) as (g1 & E1 & S1 & K1 & P1);
    [left; reflexivity | clear; lia | clear; lia | clear; lia | exact HW0 | exact L0 | exact F1 |].
  fold (part 10). rewrite E1. cbn [rbind].
  Ltac shapes S HWo HHo := let A := fresh "HWn" in let B := fresh "HHn" in
    pose proof S as (_ & A & B & _); rewrite HWo in A; rewrite HHo in B.
  shapes S1 HWo HHo.
  destruct (put_from g1 CY 1 (part 0) (g_w gin) (g_h gin) W 1 2 ((g_w gin + 1) / 3) HWn HHn K1) as (g2 & E2 & S2 & K2 & P2);
    [left; reflexivity | clear; lia | clear; lia | clear; lia | exact HW0 | exact L1 | exact F2 |].
  fold (part 0). rewrite E2. cbn [rbind]. shapes S2 HWn HHn.
  destruct (put_from g2 CY 2 (part 20) (g_w gin) (g_h gin) W 1 2 ((g_w gin + 0) / 3) HWn0 HHn0 K2) as (g3 & E3 & S3 & K3 & P3);
    [left; reflexivity | clear; lia | clear; lia | clear; lia | exact HW0 | exact L2 | exact F3 |].
  fold (part 20). rewrite E3. cbn [rbind]. shapes S3 HWn0 HHn0.
  destruct (put_from g3 CU 0 (part 0) (g_w gin) (g_h gin) W 0 4 ((g_w gin / 2 + 2) / 3) HWn1 HHn1 K3) as (g4 & E4 & S4 & K4 & P4);
    [right; left; reflexivity | clear; lia | clear; lia | clear; lia | exact HW0 | exact C0 | exact F4 |].
  rewrite E4. cbn [rbind]. shapes S4 HWn1 HHn1.
  destruct (put_from g4 CU 1 (part 10) (g_w gin) (g_h gin) W 1 4 ((g_w gin / 2 + 1) / 3) HWn2 HHn2 K4) as (g5 & E5 & S5 & K5 & P5);
    [right; left; reflexivity | clear; lia | clear; lia | clear; lia | exact HW0 | exact C1 | exact F5 |].
  rewrite E5. cbn [rbind]. shapes S5 HWn2 HHn2.
  destruct (put_from g5 CU 2 (part 20) (g_w gin) (g_h gin) W 2 4 ((g_w gin / 2 + 0) / 3) HWn3 HHn3 K5) as (g6 & E6 & S6 & K6 & P6);
    [right; left; reflexivity | clear; lia | clear; lia | clear; lia | exact HW0 | exact C2 | exact F6 |].
  rewrite E6. cbn [rbind]. shapes S6 HWn3 HHn3.
  destruct (put_from g6 CV 0 (part 20) (g_w gin) (g_h gin) W 0 4 ((g_w gin / 2 + 2) / 3) HWn4 HHn4 K6) as (g7 & E7 & S7 & K7 & P7);
    [right; right; left; reflexivity | clear; lia | clear; lia | clear; lia | exact HW0 | exact C0 | exact F7 |].
  rewrite E7. cbn [rbind]. shapes S7 HWn4 HHn4.
  destruct (put_from g7 CV 1 (part 0) (g_w gin) (g_h gin) W 2 4 ((g_w gin / 2 + 1) / 3) HWn5 HHn5 K7) as (g8 & E8 & S8 & K8 & P8);
    [right; right; left; reflexivity | clear; lia | clear; lia | clear; lia | exact HW0 | exact C1 | exact F8 |].
  rewrite E8. cbn [rbind]. shapes S8 HWn5 HHn5.
  destruct (put_from g8 CV 2 (part 10) (g_w gin) (g_h gin) W 3 4 ((g_w gin / 2 + 0) / 3) HWn6 HHn6 K8) as (g9 & E9 & S9 & K9 & P9);
    [right; right; left; reflexivity | clear; lia | clear; lia | clear; lia | exact HW0 | exact C2 | exact F9 |].
  rewrite E9. exists g9.
  pose proof (same_shape_trans _ _ _ S1 S2) as T2. pose proof (same_shape_trans _ _ _ T2 S3) as T3. pose proof (same_shape_trans _ _ _ T3 S4) as T4.
  pose proof (same_shape_trans _ _ _ T4 S5) as T5. pose proof (same_shape_trans _ _ _ T5 S6) as T6. pose proof (same_shape_trans _ _ _ T6 S7) as T7.
  pose proof (same_shape_trans _ _ _ T7 S8) as T8. pose proof (same_shape_trans _ _ _ T8 S9) as T9.
  split; [reflexivity |]. split; [exact T9 |]. split; [exact K9 |].
  intros n x y Hn Hxy.
  rewrite P9 by (try exact Hn; eapply in_comp10_shape; eassumption). rewrite P8 by (try exact Hn; eapply in_comp10_shape; eassumption).
  rewrite P7 by (try exact Hn; eapply in_comp10_shape; eassumption). rewrite P6 by (try exact Hn; eapply in_comp10_shape; eassumption).
  rewrite P5 by (try exact Hn; eapply in_comp10_shape; eassumption). rewrite P4 by (try exact Hn; eapply in_comp10_shape; eassumption).
  rewrite P3 by (try exact Hn; eapply in_comp10_shape; eassumption). rewrite P2 by (try exact Hn; eapply in_comp10_shape; eassumption).
  rewrite P1 by (try exact Hn; exact Hxy).
  rewrite (same_item _ _ S1), (same_item _ _ T2), (same_item _ _ T3), (same_item _ _ T4), (same_item _ _ T5), (same_item _ _ T6), (same_item _ _ T7), (same_item _ _ T8).
  unfold v210_sample. rewrite words_eq.
  assert (Hpart : forall sh j, 0 <= sh -> part sh j mod 2 ^ (8 * g_item gout) = g_data gin j / 2 ^ sh mod 2 ^ 10).
  { intros sh j Hsh. unfold part. rewrite part_bits by exact Hsh. apply mod10_small. exact HB. }
  fold W. 
  destruct Hn as [<- | [<- | [<- | []]]]; cbn [cname_eqb andb].
  - destruct (mod_cases3 x) as [[Hm | Hm] | Hm]; rewrite (word_y x _ Hm), Hm; cbn [Z.eqb Pos.eqb]; rewrite Hpart by (clear; lia); match goal with |- g_data gin ?i / _ mod _ = g_data gin ?j / _ mod _ => replace i with j by ring; reflexivity end.
  - destruct (mod_cases3 x) as [[Hm | Hm] | Hm]; rewrite (word_u x _ Hm), Hm; cbn [Z.eqb Pos.eqb]; rewrite Hpart by (clear; lia); match goal with |- g_data gin ?i / _ mod _ = g_data gin ?j / _ mod _ => replace i with j by ring; reflexivity end.
  - destruct (mod_cases3 x) as [[Hm | Hm] | Hm]; rewrite (word_v x _ Hm), Hm; cbn [Z.eqb Pos.eqb]; rewrite Hpart by (clear; lia); match goal with |- g_data gin ?i / _ mod _ = g_data gin ?j / _ mod _ => replace i with j by ring; reflexivity end.
Qed.

(** Packing: writing to some of the words of a line. *)
Lemma put_to gin n k d w h W start step count : g_w gin = w -> g_h gin = h -> has_kind gin k10 -> In n [CY; CU; CV] -> 0 <= k < 3 -> 0 <= start -> 0 < step -> 0 <= W ->
  let cw := if is_chroma n then w / 2 else w in
  slice_count cw k 3 = count -> count <= slice_count W start step ->
  exists d', rbind (ng_comp gin n) (fun i => v_assign 32 d (v_first (v_slice_x (local_view W h) start step) count) (v_read (g_data gin) (v_slice_x i k 3))) = Ok d' /\
    (forall j y, 0 <= j < W -> 0 <= y < h ->
      d' (y * W + j) = if (start <=? j) && ((j - start) mod step =? 0) && ((j - start) / step <? count) then sample gin n (k + 3 * ((j - start) / step)) y mod 2 ^ 32 else d (y * W + j)).
Proof.
  intros <- <- Hg Hn Hk Hst Hsp HW cw Hc Hle. destruct (comp_view gin k10 n Hg Hn) as (_ & _ & v & _ & _ & _ & _ & Ev & Wv & Hv). rewrite Ev. cbn [rbind].
  destruct (comp10 n (g_w gin) (g_h gin) Hn) as [C1 C2]. fold cw in C1. rewrite C1 in Wv. rewrite C2 in Hv.
  set (u := v_first _ _).
  assert (Hc0 : 0 <= slice_count W start step) by (unfold slice_count; destruct (start <? W) eqn:E; [apply Z.div_pos; lia | lia]).
  assert (Wu : v_w u = count) by (unfold u, v_first, v_slice_x, local_view; cbn [v_w]; lia).
  assert (Hu : v_h u = g_h gin) by reflexivity.
  assert (Au : forall x y, v_addr u x y = y * W + (start + step * x)) by (intros; unfold u, v_addr, v_first, v_slice_x, local_view; cbn [v_base v_sx v_sy]; ring).
  assert (Hx : forall x, 0 <= x < count -> start + step * x < W).
  { intros x Hx. unfold slice_count in Hle. destruct (Z.ltb_spec start W); [| lia]. assert (step * ((W - start + step - 1) / step) <= W - start + step - 1) by (apply Z.mul_div_le; lia). nia. }
  assert (Hinj : v_inj u).
  { intros x y x' y' [Vx Vy] [Vx' Vy'] E. rewrite !Au in E. rewrite Wu in Vx, Vx'. pose proof (Hx x Vx). pose proof (Hx x' Vx').
    assert (0 <= start + step * x) by nia. assert (0 <= start + step * x') by nia.
    destruct (line_unique W y (start + step * x) y' (start + step * x')) as [-> E']; [lia | lia | exact E |]. split; [nia | reflexivity]. }
  destruct (v_assign_spec 32 d u (v_read (g_data gin) (v_slice_x v k 3)) Hinj) as (d' & E & P1 & P2).
  - unfold v_read, v_slice_x. cbn [a_w v_w]. rewrite Wv, Wu. exact Hc.
  - unfold v_read, v_slice_x. cbn [a_h v_h]. rewrite Hv, Hu. reflexivity.
  - exists d'. split; [exact E |]. intros j y Hj Hy.
    destruct ((start <=? j) && ((j - start) mod step =? 0) && ((j - start) / step <? count)) eqn:Eb.
    + apply andb_true_iff in Eb. destruct Eb as [Eb E3]. apply andb_true_iff in Eb. destruct Eb as [E1 E2].
      apply Z.leb_le in E1. apply Z.eqb_eq in E2. apply Z.ltb_lt in E3.
      assert (Ej : j = start + step * ((j - start) / step)) by (pose proof (Z.div_mod (j - start) step ltac:(lia)); lia).
      assert (E0 : 0 <= (j - start) / step) by (apply Z.div_pos; lia).
      assert (V : in_view u ((j - start) / step) y) by (split; [rewrite Wu; lia | exact Hy]).
      pose proof (P1 _ _ V) as Q. rewrite Au, <- Ej in Q. rewrite Q. f_equal.
      unfold v_read, v_slice_x. cbn [a_at]. rewrite (sample_view gin n v) by exact Ev. unfold v_addr. cbn [v_base v_sx v_sy]. f_equal. ring.
    + apply P2. intros x y' [Vx Vy] E'. rewrite Wu in Vx. rewrite Au in E'. pose proof (Hx x Vx).
      assert (0 <= start + step * x) by nia. destruct (line_unique W y' (start + step * x) y j) as [-> E'']; [lia | lia | exact E' |].
      assert (Ej : j - start = x * step) by lia. rewrite Ej, Z.mod_mul, Z.div_mul in Eb by lia. lia.
Qed.

(** The value of a field of a word. *)
Definition field_of (gin : ngrain) (y j f : Z) : Z :=
  let '(n, x) := v210_inv j f in if x <? (if is_chroma n then g_w gin / 2 else g_w gin) then sample gin n x y else 0.

Lemma field_small gin y j f : has_kind gin k10 -> below gin k10 -> 0 <= j -> 0 <= f < 3 -> 0 <= y < g_h gin -> 0 <= field_of gin y j f < 2 ^ 10.
Proof.
  intros Hg Hb Hj Hf Hy. unfold field_of. destruct (place_inv j f Hf) as (_ & Hn & Hx). specialize (Hx Hj). destruct (v210_inv j f) as [n x]. cbn [fst snd] in Hn, Hx.
  destruct (Z.ltb_spec x (if is_chroma n then g_w gin / 2 else g_w gin)) as [Hlt | _]; [| lia].
  apply (Hb n x y Hn). destruct (comp10 n (g_w gin) (g_h gin) Hn) as [C1 C2]. split; [rewrite C1; lia | rewrite C2; exact Hy].
Qed.

Lemma sum_fields a b c : 0 <= a < 2 ^ 10 -> 0 <= b < 2 ^ 10 -> 0 <= c < 2 ^ 10 ->
  ((a + Z.shiftl b 10 mod 2 ^ 32) mod 2 ^ 32 + Z.shiftl c 20 mod 2 ^ 32) mod 2 ^ 32 = a + 2 ^ 10 * b + 2 ^ 20 * c.
Proof. intros Ha Hb Hc. rewrite !Z.shiftl_mul_pow2 by lia. lia. Qed.

Lemma small32 z : 0 <= z < 2 ^ 10 -> z mod 2 ^ 32 = z.
Proof. intros. apply Z.mod_small. lia. Qed.

Ltac one_if :=
  match goal with
  | |- context [if (?a <=? ?b) && ?m && ?c then _ else _] =>
      first [replace ((a <=? b) && m) with false by (clear; lia); cbn [andb] | replace ((a <=? b) && m) with true by lia; cbn [andb]]
  end.
Ltac fields :=
  repeat one_if;
  match goal with
  | |- (if ?c then _ else _) = _ => let Hc := fresh in destruct c eqn:Hc
  end;
  match goal with
  | |- _ = (if ?c then _ else _) mod _ => let Hd := fresh in destruct c eqn:Hd
  end; try (exfalso; lia); try reflexivity; try (f_equal; f_equal; lia).

Lemma first_field gin y j : 0 <= j -> 0 <= g_w gin ->
  (if (2 <=? j) && ((j - 2) mod 4 =? 0) && ((j - 2) / 4 <? ((g_w gin / 2 + 1) / 3)) then sample gin CV (1 + 3 * ((j - 2) / 4)) y mod 2 ^ 32 else (if (1 <=? j) && ((j - 1) mod 2 =? 0) && ((j - 1) / 2 <? ((g_w gin + 1) / 3)) then sample gin CY (1 + 3 * ((j - 1) / 2)) y mod 2 ^ 32 else (if (0 <=? j) && ((j - 0) mod 4 =? 0) && ((j - 0) / 4 <? ((g_w gin / 2 + 2) / 3)) then sample gin CU (0 + 3 * ((j - 0) / 4)) y mod 2 ^ 32 else 0))) = field_of gin y j 0 mod 2 ^ 32.
Proof.
  intros Hj Hw. unfold field_of. generalize (sample gin). intros s. generalize dependent (g_w gin). intros w Hw.
  assert (Ej : j = 4 * (j / 4) + j mod 4) by (apply Z.div_mod; lia). assert (Hr : 0 <= j mod 4 < 4) by (apply Z.mod_pos_bound; lia).
  assert (Hq : 0 <= j / 4) by lia. revert Ej Hr Hq. generalize (j / 4) (j mod 4). intros q r -> Hr Hq. clear Hj. rewrite inv_group by exact Hr.
  destruct (cases4 r Hr) as [-> | [-> | [-> | ->]]]; tonat; cbn [nth fst snd is_chroma]; fields.
Qed.

Lemma second_field gin y j : 0 <= j -> 0 <= g_w gin ->
  (if (3 <=? j) && ((j - 3) mod 4 =? 0) && ((j - 3) / 4 <? ((g_w gin / 2 + 0) / 3)) then sample gin CV (2 + 3 * ((j - 3) / 4)) y mod 2 ^ 32 else (if (1 <=? j) && ((j - 1) mod 4 =? 0) && ((j - 1) / 4 <? ((g_w gin / 2 + 1) / 3)) then sample gin CU (1 + 3 * ((j - 1) / 4)) y mod 2 ^ 32 else (if (0 <=? j) && ((j - 0) mod 2 =? 0) && ((j - 0) / 2 <? ((g_w gin + 2) / 3)) then sample gin CY (0 + 3 * ((j - 0) / 2)) y mod 2 ^ 32 else 0))) = field_of gin y j 1 mod 2 ^ 32.
Proof.
  intros Hj Hw. unfold field_of. generalize (sample gin). intros s. generalize dependent (g_w gin). intros w Hw.
  assert (Ej : j = 4 * (j / 4) + j mod 4) by (apply Z.div_mod; lia). assert (Hr : 0 <= j mod 4 < 4) by (apply Z.mod_pos_bound; lia).
  assert (Hq : 0 <= j / 4) by lia. revert Ej Hr Hq. generalize (j / 4) (j mod 4). intros q r -> Hr Hq. clear Hj. rewrite inv_group by exact Hr.
  destruct (cases4 r Hr) as [-> | [-> | [-> | ->]]]; tonat; cbn [nth fst snd is_chroma]; fields.
Qed.

Lemma third_field gin y j : 0 <= j -> 0 <= g_w gin ->
  (if (2 <=? j) && ((j - 2) mod 4 =? 0) && ((j - 2) / 4 <? ((g_w gin / 2 + 0) / 3)) then sample gin CU (2 + 3 * ((j - 2) / 4)) y mod 2 ^ 32 else (if (1 <=? j) && ((j - 1) mod 2 =? 0) && ((j - 1) / 2 <? ((g_w gin + 0) / 3)) then sample gin CY (2 + 3 * ((j - 1) / 2)) y mod 2 ^ 32 else (if (0 <=? j) && ((j - 0) mod 4 =? 0) && ((j - 0) / 4 <? ((g_w gin / 2 + 2) / 3)) then sample gin CV (0 + 3 * ((j - 0) / 4)) y mod 2 ^ 32 else 0))) = field_of gin y j 2 mod 2 ^ 32.
Proof.
  intros Hj Hw. unfold field_of. generalize (sample gin). intros s. generalize dependent (g_w gin). intros w Hw.
  assert (Ej : j = 4 * (j / 4) + j mod 4) by (apply Z.div_mod; lia). assert (Hr : 0 <= j mod 4 < 4) by (apply Z.mod_pos_bound; lia).
  assert (Hq : 0 <= j / 4) by lia. revert Ej Hr Hq. generalize (j / 4) (j mod 4). intros q r -> Hr Hq. clear Hj. rewrite inv_group by exact Hr.
  destruct (cases4 r Hr) as [-> | [-> | [-> | ->]]]; tonat; cbn [nth fst snd is_chroma]; fields.
Qed.

Lemma to_v210_spec gin gout : has_kind gin k10 -> v210_ok gout -> same_size gin gout ->
  exists g', to_v210 gin gout = Ok g' /\ v210_ok g' /\ same_shape gout g' /\
    (below gin k10 -> forall j y, 0 <= j < v210_words (g_w gin) -> 0 <= y < g_h gin ->
      g_data g' (y * v210_words (g_w gin) + j) = field_of gin y j 0 + 2 ^ 10 * field_of gin y j 1 + 2 ^ 20 * field_of gin y j 2).
Proof.
  intros Hin Hout [HW HH]. destruct (v210_shape gout Hout) as (Hw & Hh & Hit & Hlen & _). rewrite <- HW in Hw. rewrite <- HH in Hh. rewrite <- HW, <- HH in Hlen.
  unfold to_v210. cbv zeta.
  set (W := v210_words (g_w gin)) in *. assert (HW0 : 0 <= W /\ W = 32 * ((g_w gin + 47) / 48)) by (unfold W, v210_words; lia). destruct HW0 as [HW0 HWe]. clearbody W.
  assert (Hcount : forall k, 0 <= k < 3 -> slice_count (g_w gin) k 3 = (g_w gin + (2 - k)) / 3 /\ slice_count (g_w gin / 2) k 3 = (g_w gin / 2 + (2 - k)) / 3).
  { clear - Hw. intros k Hk. unfold slice_count. destruct (Z.ltb_spec k (g_w gin)), (Z.ltb_spec k (g_w gin / 2)); lia. }
  destruct (Hcount 0 ltac:(clear; lia)) as [L0 C0]. destruct (Hcount 1 ltac:(clear; lia)) as [L1 C1]. destruct (Hcount 2 ltac:(clear; lia)) as [L2 C2]. clear Hcount.
  cbn [Z.sub] in L0, C0, L1, C1, L2, C2.
  assert (Hfit2 : forall s c, 0 <= s < 2 -> c <= (g_w gin + (2 - s)) / 3 -> c <= slice_count W s 2).
  { clear - Hw HWe. intros s c Hs Hc. unfold slice_count. destruct (Z.ltb_spec s W); lia. }
  assert (Hfit4 : forall s c, 0 <= s < 4 -> c <= (g_w gin / 2 + (if s <? 2 then 2 - s else 1)) / 3 -> (s = 3 -> c <= (g_w gin / 2 + 0) / 3) -> c <= slice_count W s 4).
  { clear - Hw HWe. intros s c Hs Hc Hc'. unfold slice_count. destruct (Z.ltb_spec s W), (Z.ltb_spec s 2); lia. }
  assert (F0 : ((g_w gin / 2 + 2) / 3) <= slice_count W 0 4) by (clear - Hfit4 Hw; apply Hfit4; cbn [Z.ltb Z.compare Pos.compare Pos.compare_cont Z.sub Z.add Z.opp Z.pos_sub]; lia).
  assert (F1 : ((g_w gin + 1) / 3) <= slice_count W 1 2) by (clear - Hfit2 Hw; apply Hfit2; cbn [Z.ltb Z.compare Pos.compare Pos.compare_cont Z.sub Z.add Z.opp Z.pos_sub]; lia).
  assert (F2 : ((g_w gin / 2 + 1) / 3) <= slice_count W 2 4) by (clear - Hfit4 Hw; apply Hfit4; cbn [Z.ltb Z.compare Pos.compare Pos.compare_cont Z.sub Z.add Z.opp Z.pos_sub]; lia).
  assert (F3 : ((g_w gin + 2) / 3) <= slice_count W 0 2) by (clear - Hfit2 Hw; apply Hfit2; cbn [Z.ltb Z.compare Pos.compare Pos.compare_cont Z.sub Z.add Z.opp Z.pos_sub]; lia).
  assert (F4 : ((g_w gin / 2 + 1) / 3) <= slice_count W 1 4) by (clear - Hfit4 Hw; apply Hfit4; cbn [Z.ltb Z.compare Pos.compare Pos.compare_cont Z.sub Z.add Z.opp Z.pos_sub]; lia).
  assert (F5 : ((g_w gin / 2 + 0) / 3) <= slice_count W 3 4) by (clear - Hfit4 Hw; apply Hfit4; cbn [Z.ltb Z.compare Pos.compare Pos.compare_cont Z.sub Z.add Z.opp Z.pos_sub]; lia).
  assert (F6 : ((g_w gin / 2 + 2) / 3) <= slice_count W 0 4) by (clear - Hfit4 Hw; apply Hfit4; cbn [Z.ltb Z.compare Pos.compare Pos.compare_cont Z.sub Z.add Z.opp Z.pos_sub]; lia).
  assert (F7 : ((g_w gin + 0) / 3) <= slice_count W 1 2) by (clear - Hfit2 Hw; apply Hfit2; cbn [Z.ltb Z.compare Pos.compare Pos.compare_cont Z.sub Z.add Z.opp Z.pos_sub]; lia).
  assert (F8 : ((g_w gin / 2 + 0) / 3) <= slice_count W 2 4) by (clear - Hfit4 Hw; apply Hfit4; cbn [Z.ltb Z.compare Pos.compare Pos.compare_cont Z.sub Z.add Z.opp Z.pos_sub]; lia).
  clear Hfit2 Hfit4.
  destruct (put_to gin CU 0 (fun _ => 0) (g_w gin) (g_h gin) W 0 4 ((g_w gin / 2 + 2) / 3) eq_refl eq_refl Hin) as (a1 & Ea1 & Pa1);
    [right; left; reflexivity | clear; lia | clear; lia | clear; lia | exact HW0 | exact C0 | exact F0 |].
  rewrite Ea1. cbn [rbind].
  destruct (put_to gin CY 1 a1 (g_w gin) (g_h gin) W 1 2 ((g_w gin + 1) / 3) eq_refl eq_refl Hin) as (a2 & Ea2 & Pa2);
    [left; reflexivity | clear; lia | clear; lia | clear; lia | exact HW0 | exact L1 | exact F1 |].
  rewrite Ea2. cbn [rbind].
  destruct (put_to gin CV 1 a2 (g_w gin) (g_h gin) W 2 4 ((g_w gin / 2 + 1) / 3) eq_refl eq_refl Hin) as (a3 & Ea3 & Pa3);
    [right; right; left; reflexivity | clear; lia | clear; lia | clear; lia | exact HW0 | exact C1 | exact F2 |].
  rewrite Ea3. cbn [rbind].
  destruct (put_to gin CY 0 (fun _ => 0) (g_w gin) (g_h gin) W 0 2 ((g_w gin + 2) / 3) eq_refl eq_refl Hin) as (b1 & Eb1 & Pb1);
    [left; reflexivity | clear; lia | clear; lia | clear; lia | exact HW0 | exact L0 | exact F3 |].
  rewrite Eb1. cbn [rbind].
  destruct (put_to gin CU 1 b1 (g_w gin) (g_h gin) W 1 4 ((g_w gin / 2 + 1) / 3) eq_refl eq_refl Hin) as (b2 & Eb2 & Pb2);
    [right; left; reflexivity | clear; lia | clear; lia | clear; lia | exact HW0 | exact C1 | exact F4 |].
  rewrite Eb2. cbn [rbind].
  destruct (put_to gin CV 2 b2 (g_w gin) (g_h gin) W 3 4 ((g_w gin / 2 + 0) / 3) eq_refl eq_refl Hin) as (b3 & Eb3 & Pb3);
    [right; right; left; reflexivity | clear; lia | clear; lia | clear; lia | exact HW0 | exact C2 | exact F5 |].
  rewrite Eb3. cbn [rbind].
  destruct (put_to gin CV 0 (fun _ => 0) (g_w gin) (g_h gin) W 0 4 ((g_w gin / 2 + 2) / 3) eq_refl eq_refl Hin) as (c1 & Ec1 & Pc1);
    [right; right; left; reflexivity | clear; lia | clear; lia | clear; lia | exact HW0 | exact C0 | exact F6 |].
  rewrite Ec1. cbn [rbind].
  destruct (put_to gin CY 2 c1 (g_w gin) (g_h gin) W 1 2 ((g_w gin + 0) / 3) eq_refl eq_refl Hin) as (c2 & Ec2 & Pc2);
    [left; reflexivity | clear; lia | clear; lia | clear; lia | exact HW0 | exact L2 | exact F7 |].
  rewrite Ec2. cbn [rbind].
  destruct (put_to gin CU 2 c2 (g_w gin) (g_h gin) W 2 4 ((g_w gin / 2 + 0) / 3) eq_refl eq_refl Hin) as (c3 & Ec3 & Pc3);
    [right; left; reflexivity | clear; lia | clear; lia | clear; lia | exact HW0 | exact C2 | exact F8 |].
  rewrite Ec3. cbn [rbind].
  assert (Hl : (g_len gout =? g_h gin * W) = true) by (apply Z.eqb_eq; exact Hlen). rewrite Hl. cbn [negb]. eexists. split; [reflexivity |]. split.
  { destruct Hout as [Hf (O1 & O2 & O3 & _)]. split; [exact Hf |]. split; [exact O1 |]. split; [exact O2 |]. split; [exact O3 |].
    intros i _. cbn [g_data g_item]. rewrite Hit. apply Z.mod_pos_bound. apply Z.pow_pos_nonneg; clear; lia. }
  split; [repeat split |]. intros Hb j y Hj Hy. cbn [g_data].
  assert (Hj0 : 0 <= j) by (clear - Hj; lia).
  pose proof (field_small gin y j 0 Hin Hb Hj0 ltac:(clear; lia) Hy) as S0. pose proof (field_small gin y j 1 Hin Hb Hj0 ltac:(clear; lia) Hy) as S1.
  pose proof (field_small gin y j 2 Hin Hb Hj0 ltac:(clear; lia) Hy) as S2.
  rewrite <- (sum_fields _ _ _ S0 S1 S2).
  assert (Q0 : a3 (y * W + j) = field_of gin y j 0 mod 2 ^ 32).
  { rewrite Pa3, Pa2, Pa1 by assumption. apply first_field; [exact Hj0 | exact Hw]. }
  assert (Q1 : b3 (y * W + j) = field_of gin y j 1 mod 2 ^ 32).
  { rewrite Pb3, Pb2, Pb1 by assumption. apply second_field; [exact Hj0 | exact Hw]. }
  assert (Q2 : c3 (y * W + j) = field_of gin y j 2 mod 2 ^ 32).
  { rewrite Pc3, Pc2, Pc1 by assumption. apply third_field; [exact Hj0 | exact Hw]. }
  rewrite small32 in Q0, Q1, Q2 by assumption. rewrite Q0, Q1, Q2. reflexivity.
Qed.

(** The three fields of a word. *)
Lemma field_extract a b c f : 0 <= a < 2 ^ 10 -> 0 <= b < 2 ^ 10 -> 0 <= c < 2 ^ 10 -> 0 <= f < 3 ->
  (a + 2 ^ 10 * b + 2 ^ 20 * c) / 2 ^ (10 * f) mod 2 ^ 10 = if f =? 0 then a else if f =? 1 then b else c.
Proof. intros Ha Hb Hc Hf. destruct (cases3 f Hf) as [-> | [-> | ->]]; cbn [Z.eqb Pos.eqb Z.mul Pos.mul Pos.add]; lia. Qed.

Lemma word_sum d : 0 <= d < 2 ^ 30 -> d = d / 2 ^ (10 * 0) mod 2 ^ 10 + 2 ^ 10 * (d / 2 ^ (10 * 1) mod 2 ^ 10) + 2 ^ 20 * (d / 2 ^ (10 * 2) mod 2 ^ 10).
Proof. intros H. cbn [Z.mul Pos.mul Pos.add]. lia. Qed.

Lemma k10_only g : has_kind g k10 -> g_fmt g = S16_422_10BIT.
Proof.
  intros [H _].
  assert (C : forallb (fun e => negb ((k_hs (snd e) =? 2) && (k_vs (snd e) =? 1) && (k_depth (snd e) =? 10)) || (fst e =? S16_422_10BIT)) kinds = true) by (vm_compute; reflexivity).
  rewrite forallb_forall in C. specialize (C _ H). cbn [fst snd k10 yuv422 k_hs k_vs k_depth Z.eqb Pos.eqb andb negb orb] in C. apply Z.eqb_eq. exact C.
Qed.

Lemma field_index gin y j f : 0 <= f < 3 -> field_of gin y j f = (if f =? 0 then field_of gin y j 0 else if f =? 1 then field_of gin y j 1 else field_of gin y j 2).
Proof. intros Hf. destruct (cases3 f Hf) as [-> | [-> | ->]]; reflexivity. Qed.

Lemma place_word n x w : In n [CY; CU; CV] -> 0 <= w -> 0 <= x < (if is_chroma n then w / 2 else w) -> 0 <= fst (v210_place n x) < v210_words w.
Proof.
  intros Hn Hw Hx. unfold v210_words. destruct (inv_place n x Hn) as (_ & _ & H0). split; [apply H0; lia |]. clear H0.
  destruct Hn as [<- | [<- | [<- | []]]]; cbn [is_chroma] in Hx.
  - destruct (mod_cases3 x) as [[Hm | Hm] | Hm]; rewrite (word_y x _ Hm); cbn [Z.eqb Pos.eqb fst]; lia.
  - destruct (mod_cases3 x) as [[Hm | Hm] | Hm]; rewrite (word_u x _ Hm); cbn [Z.eqb Pos.eqb fst]; lia.
  - destruct (mod_cases3 x) as [[Hm | Hm] | Hm]; rewrite (word_v x _ Hm); cbn [Z.eqb Pos.eqb fst]; lia.
Qed.

(** Every sample is where v210 says it is, and the other fields are zero. *)
Lemma to_v210_samples gin gout : has_kind gin k10 -> v210_ok gout -> same_size gin gout -> below gin k10 ->
  exists g', to_v210 gin gout = Ok g' /\ v210_ok g' /\ same_shape gout g' /\
    (forall n x y, In n [CY; CU; CV] -> in_comp k10 gin n x y -> v210_sample g' n x y = sample gin n x y) /\
    (forall j y, 0 <= j < v210_words (g_w gin) -> 0 <= y < g_h gin -> 0 <= g_data g' (y * v210_words (g_w gin) + j) < 2 ^ 30 /\
      forall f, 0 <= f < 3 -> ~ v210_used (g_w gin) j f -> g_data g' (y * v210_words (g_w gin) + j) / 2 ^ (10 * f) mod 2 ^ 10 = 0).
Proof.
  intros Hin Hout Hs Hb. destruct (to_v210_spec gin gout Hin Hout Hs) as (g' & E & O' & S' & P). specialize (P Hb). exists g'. split; [exact E |]. split; [exact O' |]. split; [exact S' |].
  destruct Hs as [HW HH]. pose proof S' as (_ & SW & SH & _). destruct (kind_pos gin k10 Hin) as (_ & Hw & Hh). split.
  - intros n x y Hn Hxy. destruct (inv_place n x Hn) as (Hi & Hf & _). pose proof (place_word n x (g_w gin) Hn Hw) as Hp.
    destruct (comp10 n (g_w gin) (g_h gin) Hn) as [C1 C2]. destruct Hxy as [Hx Hy]. rewrite C1 in Hx. rewrite C2 in Hy. specialize (Hp Hx).
    unfold v210_sample. rewrite SW, <- HW, words_eq. destruct (v210_place n x) as [j f]. cbn [fst snd] in *.
    rewrite P by assumption.
    assert (F : forall f, 0 <= f < 3 -> 0 <= field_of gin y j f < 2 ^ 10) by (intros; apply field_small; try assumption; lia).
    rewrite field_extract by (try apply F; lia). rewrite <- field_index by exact Hf. unfold field_of. rewrite Hi.
    destruct (Z.ltb_spec x (if is_chroma n then g_w gin / 2 else g_w gin)) as [_ | Hge]; [reflexivity | lia].
  - intros j y Hj Hy. rewrite P by assumption.
    assert (F : forall f, 0 <= f < 3 -> 0 <= field_of gin y j f < 2 ^ 10) by (intros; apply field_small; try assumption; lia).
    split.
    + pose proof (F 0 ltac:(lia)). pose proof (F 1 ltac:(lia)). pose proof (F 2 ltac:(lia)). clear - H H0 H1. lia.
    + intros f Hf Hu. rewrite field_extract by (try apply F; lia). rewrite <- field_index by exact Hf. unfold field_of.
      destruct (place_inv j f Hf) as (Hp & Hn & Hx0). destruct (v210_inv j f) as [n x]. cbn [fst snd] in *.
      destruct (Z.ltb_spec x (if is_chroma n then g_w gin / 2 else g_w gin)) as [Hlt | _]; [| reflexivity].
      exfalso. apply Hu. exists n, x. split; [exact Hn |]. destruct (comp10 n (g_w gin) (g_h gin) Hn) as [C1 _]. change (yuv422 10) with k10.
      split; [rewrite C1; split; [apply Hx0; lia | exact Hlt] | exact Hp].
Qed.

(** Two v210 pictures with the same samples and nothing in the other fields are equal. *)
Lemma v210_equal g g' : v210_ok g -> v210_ok g' -> same_size g g' -> v210_clean g -> v210_clean g' ->
  (forall n x y, In n [CY; CU; CV] -> in_comp k10 g n x y -> v210_sample g n x y = v210_sample g' n x y) ->
  forall i, 0 <= i < g_len g -> g_data g i = g_data g' i.
Proof.
  intros Hg Hg' [HW HH] Hc Hc' Hs i Hi. destruct (v210_shape g Hg) as (Hw & Hh & _ & Hlen & Hr). destruct (v210_shape g' Hg') as (_ & _ & _ & Hlen' & Hr').
  rewrite Hlen in Hi. set (W := v210_words (g_w g)) in *. assert (HWp : 0 < W) by nia.
  assert (Ei : i = (i / W) * W + i mod W) by (rewrite Z.mul_comm; apply Z.div_mod; lia).
  assert (Hj : 0 <= i mod W < W) by (apply Z.mod_pos_bound; exact HWp).
  assert (Hy : 0 <= i / W < g_h g) by (split; [apply Z.div_pos; lia | apply Z.div_lt_upper_bound; [lia | rewrite Z.mul_comm; lia]]).
  assert (Hr0 : 0 <= g_data g i < 2 ^ 32) by (apply Hr; rewrite Hlen; exact Hi).
  assert (Hr0' : 0 <= g_data g' i < 2 ^ 32) by (apply Hr'; rewrite Hlen', <- HW, <- HH; exact Hi).
  set (j := i mod W) in *. set (y := i / W) in *. clearbody j y.
  assert (Hc1 := Hc j y). rewrite words_eq in Hc1. fold W in Hc1. destruct (Hc1 Hj Hy) as [Hb Hz]. clear Hc1. rewrite <- Ei in Hb, Hz.
  assert (Hc2 := Hc' j y). rewrite words_eq, <- HW, <- HH in Hc2. fold W in Hc2. destruct (Hc2 Hj Hy) as [Hb' Hz']. rewrite <- Ei in Hb', Hz'. clear Hc2.
  assert (Hf : forall f, 0 <= f < 3 -> g_data g i / 2 ^ (10 * f) mod 2 ^ 10 = g_data g' i / 2 ^ (10 * f) mod 2 ^ 10).
  { intros f Hf. destruct (place_inv j f Hf) as (Hp & Hn & Hx0). specialize (Hx0 (proj1 Hj)). destruct (v210_inv j f) as [n x]. cbn [fst snd] in *.
    destruct (comp10 n (g_w g) (g_h g) Hn) as [C1 C2].
    destruct (Z_lt_ge_dec x (comp_w k10 n (g_w g))) as [Hlt | Hge].
    - specialize (Hs n x y Hn). unfold v210_sample in Hs. rewrite Hp, <- HW, words_eq in Hs. fold W in Hs. rewrite <- Ei in Hs. apply Hs. split; [split; assumption | rewrite C2; exact Hy].
    - assert (Hu : ~ v210_used (g_w g) j f).
      { intros (n' & x' & Hn' & Hx' & Hp'). pose proof (inv_place n x Hn) as (I1 & _). pose proof (inv_place n' x' Hn') as (I2 & _).
        rewrite Hp in I1. rewrite Hp' in I2. cbn [fst snd] in I1, I2. rewrite I1 in I2. injection I2 as <- <-. change (yuv422 10) with k10 in Hx'. lia. }
      rewrite (Hz f Hf Hu), (Hz' f Hf Hu). reflexivity. }
  rewrite (word_sum (g_data g i)), (word_sum (g_data g' i)) by (split; [apply Hr0 || apply Hr0' | assumption]).
  rewrite (Hf 0), (Hf 1), (Hf 2) by (clear; lia). reflexivity.
Qed.
