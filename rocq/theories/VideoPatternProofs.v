(** Proofs about the video patterns. *)
From Verif Require Import Base BaseProofs CogEnums VideoLayout LayoutSpec LayoutProofs NpView NpViewProofs GsfPrimProofs
  PatternTime Tone VideoPattern PatternSpec.
From Coq Require Import Lia ZifyBool ZifyNat.
Ltac Zify.zify_post_hook ::= Z.div_mod_to_equations.

(** Bytes of a buffer. *)
Definition byte_at (d : bytes) (i : Z) : Z := nth (Z.to_nat i) d 0.

Lemma byte_app_l a b i : 0 <= i < zlen a -> byte_at (a ++ b) i = byte_at a i.
Proof. intros H. unfold byte_at, zlen in *. apply app_nth1. lia. Qed.

Lemma byte_app_r a b i : zlen a <= i -> byte_at (a ++ b) i = byte_at b (i - zlen a).
Proof. intros H. unfold byte_at, zlen in *. rewrite app_nth2 by lia. f_equal. lia. Qed.

Lemma byte_zfirst n d i : 0 <= i < n -> byte_at (zfirst n d) i = byte_at d i.
Proof.
  intros H. unfold byte_at. rewrite zfirst_firstn. destruct (Nat.lt_ge_cases (Z.to_nat i) (length d)) as [L|L].
  - rewrite <- (firstn_skipn (Z.to_nat n) d) at 2. rewrite app_nth1; [reflexivity|]. rewrite firstn_length. lia.
  - rewrite !nth_overflow; [reflexivity|lia|]. rewrite firstn_length. lia.
Qed.

Lemma byte_zskip n d i : 0 <= n -> 0 <= i -> byte_at (zskip n d) i = byte_at d (n + i).
Proof.
  intros Hn Hi. unfold byte_at. rewrite zskip_skipn. replace (Z.to_nat (n + i)) with (Z.to_nat n + Z.to_nat i)%nat by lia.
  generalize (Z.to_nat n) (Z.to_nat i). clear. intros n i. revert d.
  induction n as [|n IH]; intros [|x d]; cbn [skipn Nat.add nth]; try reflexivity; [now destruct i|apply IH].
Qed.

Lemma bytes_ext (a b : bytes) : zlen a = zlen b -> (forall i, 0 <= i < zlen a -> byte_at a i = byte_at b i) -> a = b.
Proof.
  intros HL H. apply (nth_ext a b 0 0); [unfold zlen in HL; lia|]. intros n Hn.
  specialize (H (Z.of_nat n)). unfold byte_at, zlen in H. rewrite Nat2Z.id in H. apply H. lia.
Qed.

Lemma slice_len d a b l : 0 <= a -> b = a + zlen l -> b <= zlen d -> zlen (set_slice d a b l) = zlen d.
Proof.
  intros Ha Hb Hd. pose proof (zlen_nonneg l). unfold set_slice. rewrite Z.max_r by lia.
  rewrite !zlen_app, zlen_zfirst, zlen_zskip by lia. lia.
Qed.

Lemma slice_in d a b l i : 0 <= a -> b = a + zlen l -> b <= zlen d -> a <= i < b -> byte_at (set_slice d a b l) i = byte_at l (i - a).
Proof.
  intros Ha Hb Hd Hi. pose proof (zlen_nonneg l). unfold set_slice. rewrite Z.max_r by lia.
  assert (E : zlen (zfirst a d) = a) by (rewrite zlen_zfirst; lia).
  rewrite byte_app_r by lia. rewrite E. apply byte_app_l. lia.
Qed.

Lemma slice_out d a b l i : 0 <= a -> b = a + zlen l -> b <= zlen d -> 0 <= i -> ~ (a <= i < b) ->
  byte_at (set_slice d a b l) i = byte_at d i.
Proof.
  intros Ha Hb Hd Hi Hn. pose proof (zlen_nonneg l). unfold set_slice. rewrite Z.max_r by lia.
  assert (E : zlen (zfirst a d) = a) by (rewrite zlen_zfirst; lia).
  destruct (Z.lt_ge_cases i a) as [L|L].
  - rewrite byte_app_l by lia. apply byte_zfirst. lia.
  - rewrite byte_app_r by lia. rewrite E. rewrite byte_app_r by lia. rewrite byte_zskip by lia. f_equal. lia.
Qed.

(** Lines. *)
Definition le (b v : Z) : bytes := if b =? 1 then [v] else [Z.land v 0xFF; Z.land (Z.shiftr v 8) 0xFF].
Definition line_bytes (b : Z) (v : Z -> Z) (width : Z) : bytes := flat_map (fun x => le b (v x)) (zrange width).

Lemma le_len b v : b = 1 \/ b = 2 -> zlen (le b v) = b.
Proof. intros [-> | ->]; reflexivity. Qed.

Lemma byte_land v : 0 <= Z.land v 0xFF < 256.
Proof. change 0xFF with 255. rewrite land255. lia. Qed.

Lemma zeros_split n m : 0 <= n -> 0 <= m -> zeros (Z.to_nat (n + m)) = zeros (Z.to_nat n) ++ zeros (Z.to_nat m).
Proof. intros Hn Hm. unfold zeros. rewrite <- repeat_app. f_equal. lia. Qed.

Lemma set_item_at A z Z' v : 0 <= v < 256 -> set_item (A ++ z :: Z') (zlen A) v = Ok (A ++ v :: Z').
Proof.
  intros Hv. unfold set_item. rewrite zlen_app, zlen_cons. pose proof (zlen_nonneg Z'). pose proof (zlen_nonneg A).
  replace (zlen A <? zlen A + (1 + zlen Z')) with true by lia. cbn [negb].
  replace ((0 <=? v) && (v <? 256)) with true by lia. cbn [negb]. unfold set_slice.
  rewrite zfirst_app, Z.max_r by lia. do 2 f_equal.
  rewrite zskip_app_ge by lia. replace (zlen A + 1 - zlen A) with 1 by lia. cbn [app]. f_equal.
  rewrite zskip_cons by lia. apply zskip_le0. lia.
Qed.

Lemma put_sample_at A x b rest v : b = 1 \/ b = 2 -> zlen A = x * b -> 0 <= rest -> (b = 1 -> 0 <= v < 256) ->
  put_sample b (A ++ zeros (Z.to_nat (b + rest))) x v = Ok ((A ++ le b v) ++ zeros (Z.to_nat rest)).
Proof.
  intros Hb HA Hr Hv. rewrite zeros_split by lia. destruct Hb as [-> | ->].
  - unfold put_sample, le. cbn [Z.eqb Pos.eqb]. change (zeros (Z.to_nat 1)) with [0]. cbn [app].
    replace x with (zlen A) by lia. rewrite set_item_at by (now apply Hv). now rewrite <- app_assoc.
  - unfold put_sample, le. cbn [Z.eqb Pos.eqb]. change (zeros (Z.to_nat 2)) with [0; 0]. cbn [app].
    replace (2 * x + 0) with (zlen A) by lia. rewrite set_item_at by apply byte_land. cbn [rbind].
    replace (A ++ Z.land v 255 :: 0 :: zeros (Z.to_nat rest)) with ((A ++ [Z.land v 255]) ++ 0 :: zeros (Z.to_nat rest)) by (now rewrite <- app_assoc).
    replace (2 * x + 1) with (zlen (A ++ [Z.land v 255])) by (rewrite zlen_app, zlen_cons, zlen_nil; lia).
    rewrite set_item_at by apply byte_land. rewrite <- !app_assoc. reflexivity.
Qed.

Lemma zrange_app n m : 0 <= n -> 0 <= m -> zrange (n + m) = zrange n ++ map (fun x => n + x) (zrange m).
Proof.
  intros Hn Hm. unfold zrange. replace (Z.to_nat (n + m)) with (Z.to_nat n + Z.to_nat m)%nat by lia.
  rewrite seq_app, map_app, map_map. f_equal. rewrite Nat.add_0_l.
  replace (seq (Z.to_nat n) (Z.to_nat m)) with (map (fun i => (Z.to_nat n + i)%nat) (seq 0 (Z.to_nat m))).
  - rewrite map_map. apply map_ext. intros x. lia.
  - clear. generalize (Z.to_nat n) as a. induction (Z.to_nat m) as [|k IH]; intros a; [reflexivity|].
    cbn [seq map]. rewrite Nat.add_0_r. f_equal. rewrite <- (IH (S a)), <- seq_shift, map_map. apply map_ext. intros x. lia.
Qed.

Lemma for_app {A S} (body : S -> A -> res S) : forall l1 l2 s,
  for_each body s (l1 ++ l2) = rbind (for_each body s l1) (fun s => for_each body s l2).
Proof.
  induction l1 as [|x l1 IH]; intros l2 s; [reflexivity|]. cbn [app for_each].
  destruct (body s x) as [s'|e]; cbn [rbind]; [apply IH|reflexivity].
Qed.

Lemma for_ext {A S} (f g : S -> A -> res S) : forall l s, (forall x s, In x l -> f s x = g s x) -> for_each f s l = for_each g s l.
Proof.
  induction l as [|x l IH]; intros s H; [reflexivity|]. cbn [for_each]. rewrite (H x s (or_introl eq_refl)).
  destruct (g s x) as [s'|e]; cbn [rbind]; [|reflexivity]. apply IH. intros y s0 Hy. apply H. now right.
Qed.

Lemma line_len b v n : b = 1 \/ b = 2 -> 0 <= n -> zlen (line_bytes b v n) = n * b.
Proof.
  intros Hb Hn. unfold line_bytes. replace n with (zlen (zrange n)) at 2.
  - induction (zrange n) as [|x l IH]; [reflexivity|]. cbn [flat_map]. rewrite zlen_app, le_len, IH, zlen_cons by exact Hb. ring.
  - unfold zlen, zrange. rewrite map_length, seq_length. lia.
Qed.

Lemma line_succ b v n : 0 <= n -> line_bytes b v (n + 1) = line_bytes b v n ++ le b (v n).
Proof.
  intros Hn. unfold line_bytes. rewrite zrange_app by lia. rewrite flat_map_app. f_equal.
  change (zrange 1) with [0]. cbn [map flat_map]. rewrite app_nil_r, Z.add_0_r. reflexivity.
Qed.

(** Filling a line from left to right. *)
Lemma fill_prefix b (v : Z -> Z) width n : b = 1 \/ b = 2 -> 0 <= n <= width -> (b = 1 -> forall x, 0 <= x < n -> 0 <= v x < 256) ->
  for_each (fun line x => put_sample b line x (v x)) (zeros (Z.to_nat (width * b))) (zrange n) =
  Ok (line_bytes b v n ++ zeros (Z.to_nat ((width - n) * b))).
Proof.
  intros Hb Hw Hv.
  assert (H : forall m : nat, Z.of_nat m <= n ->
    for_each (fun line x => put_sample b line x (v x)) (zeros (Z.to_nat (width * b))) (zrange (Z.of_nat m)) =
    Ok (line_bytes b v (Z.of_nat m) ++ zeros (Z.to_nat ((width - Z.of_nat m) * b)))).
  { clear - Hb Hw Hv. rename n into n0. induction m as [|n IH]; intros Hn.
    - change (zrange (Z.of_nat 0)) with (@nil Z). cbn [for_each]. change (line_bytes b v (Z.of_nat 0)) with (@nil Z).
      cbn [app]. do 3 f_equal. change (Z.of_nat 0) with 0. ring.
    - replace (Z.of_nat (S n)) with (Z.of_nat n + 1) by lia. rewrite zrange_app by lia. rewrite for_app, IH by lia. cbn [rbind].
      change (zrange 1) with [0]. cbn [map for_each]. rewrite Z.add_0_r.
      replace ((width - Z.of_nat n) * b) with (b + (width - (Z.of_nat n + 1)) * b) by ring.
      rewrite put_sample_at; [|exact Hb|apply line_len; [exact Hb|lia]|destruct Hb; subst b; lia|intros E; apply Hv; [exact E|lia]].
      cbn [rbind]. rewrite line_succ by lia. reflexivity. }
  specialize (H (Z.to_nat n)). rewrite Z2Nat.id in H by lia. apply H. lia.
Qed.

Lemma fill_line b (v : Z -> Z) width : b = 1 \/ b = 2 -> 0 <= width -> (b = 1 -> forall x, 0 <= x < width -> 0 <= v x < 256) ->
  for_each (fun line x => put_sample b line x (v x)) (zeros (Z.to_nat (width * b))) (zrange width) = Ok (line_bytes b v width).
Proof.
  intros Hb Hw Hv. rewrite fill_prefix by (try assumption; lia).
  rewrite Z.sub_diag, Z.mul_0_l. change (zeros (Z.to_nat 0)) with (@nil Z). now rewrite app_nil_r.
Qed.

Lemma byte_line b v width x j : b = 1 \/ b = 2 -> 0 <= x < width -> 0 <= j < b ->
  byte_at (line_bytes b v width) (x * b + j) = byte_at (le b (v x)) j.
Proof.
  intros Hb Hx Hj. replace width with (x + (1 + (width - x - 1))) by lia.
  unfold line_bytes. rewrite zrange_app by lia. rewrite flat_map_app.
  assert (HL := line_len b v x Hb ltac:(lia)). unfold line_bytes in HL.
  rewrite byte_app_r by (rewrite HL; lia). rewrite HL.
  rewrite zrange_app by lia. rewrite map_app, flat_map_app. change (zrange 1) with [0]. cbn [map flat_map]. rewrite app_nil_r, Z.add_0_r.
  replace (x * b + j - x * b) with j by lia. apply byte_app_l. rewrite le_len by exact Hb. exact Hj.
Qed.

(** Rows. *)
Lemma row_len b c line d y : 0 <= vc_offset c + y * vc_stride c -> zlen line = vc_width c * b ->
  vc_offset c + y * vc_stride c + vc_width c * b <= zlen d -> zlen (put_row b c line d y) = zlen d.
Proof. intros. unfold put_row. apply slice_len; lia. Qed.

(** A component whose lines follow each other inside the buffer. *)
Definition comp_ok (b : Z) (c : vcomp) (lo hi : Z) : Prop :=
  0 <= lo /\ lo <= vc_offset c /\ vc_stride c = vc_width c * b /\ 0 <= vc_width c /\ 0 <= vc_height c /\
  vc_offset c + vc_height c * vc_stride c <= hi.

Lemma row_bounds b c lo hi y : b = 1 \/ b = 2 -> comp_ok b c lo hi -> 0 <= y < vc_height c ->
  lo <= vc_offset c + y * vc_stride c /\ 0 <= vc_offset c + y * vc_stride c /\
  vc_offset c + y * vc_stride c + vc_width c * b <= hi.
Proof.
  intros Hb (H0 & H1 & H2 & H3 & H4 & H5) Hy. assert (0 <= vc_stride c) by (destruct Hb; subst b; lia).
  assert (y * vc_stride c <= (vc_height c - 1) * vc_stride c) by (apply Z.mul_le_mono_nonneg_r; lia).
  assert (0 <= y * vc_stride c) by (apply Z.mul_nonneg_nonneg; lia).
  rewrite <- H2. lia.
Qed.

Lemma rows_fold b c lo hi line : b = 1 \/ b = 2 -> comp_ok b c lo hi -> zlen line = vc_width c * b -> forall ys d,
  hi <= zlen d -> (forall y, In y ys -> 0 <= y < vc_height c) ->
  zlen (fold_left (put_row b c line) ys d) = zlen d /\
  (forall i, 0 <= i -> ~ (lo <= i < hi) -> byte_at (fold_left (put_row b c line) ys d) i = byte_at d i) /\
  (forall y j, 0 <= y < vc_height c -> 0 <= j < vc_width c * b ->
    byte_at (fold_left (put_row b c line) ys d) (vc_offset c + y * vc_stride c + j) =
    (if in_dec Z.eq_dec y ys then byte_at line j else byte_at d (vc_offset c + y * vc_stride c + j))).
Proof.
  intros Hb HC HL. induction ys as [|y0 ys IH]; intros d Hd Hys.
  - cbn [fold_left]. repeat split.
  - cbn [fold_left]. assert (Hy0 := Hys y0 (or_introl eq_refl)). destruct (row_bounds b c lo hi y0 Hb HC Hy0) as (B1 & B2 & B3).
    assert (EL : zlen (put_row b c line d y0) = zlen d) by (apply row_len; [exact B2|exact HL|lia]).
    destruct (IH (put_row b c line d y0)) as (I1 & I2 & I3); [lia|intros y Hy; apply Hys; now right|].
    split; [lia|]. split.
    + intros i Hi Hn. rewrite I2 by assumption. unfold put_row. apply slice_out; lia.
    + intros y j Hy Hj. rewrite I3 by assumption. pose proof HC as (_ & _ & HS & _).
      destruct (in_dec Z.eq_dec y ys) as [Y|N].
      * destruct (in_dec Z.eq_dec y (y0 :: ys)) as [_|N]; [reflexivity|]. exfalso. apply N. now right.
      * destruct (Z.eq_dec y0 y) as [->|D].
        -- destruct (in_dec Z.eq_dec y (y :: ys)) as [_|N']; [|exfalso; apply N'; now left].
           unfold put_row. rewrite slice_in by lia. f_equal. lia.
        -- destruct (in_dec Z.eq_dec y (y0 :: ys)) as [[E|Y]|_]; [contradiction|contradiction|].
           unfold put_row. destruct (row_bounds b c lo hi y Hb HC Hy) as (C1 & C2 & C3).
           apply slice_out; [lia|lia|lia|lia|]. rewrite HS in *.
           clear - D Hj Hy Hy0. set (s := vc_width c * b) in *. clearbody s.
           assert (y + 1 <= y0 \/ y0 + 1 <= y) as [L|L] by lia; [assert (y * s + s <= y0 * s) by nia | assert (y0 * s + s <= y * s) by nia]; lia.
Qed.

(** The shape of a pattern. *)
Record shape (f w h hs vs b bits : Z) (px : pixel_range) (c0 c1 c2 : vcomp) : Prop := mkShape {
  sh_px : px_lookup pixel_ranges f = Some px;
  sh_num : px = mkPx b (black bits) (luma_span bits) (neutral bits) (neutral bits) bits;
  sh_comps : components_for_format f w h = [c0; c1; c2];
  sh_b : b = 1 \/ b = 2;
  sh_bits : (b = 1 /\ bits = 8) \/ (b = 2 /\ 8 <= bits <= 16);
  sh_subs : 0 < hs /\ 0 < vs /\ H_SHIFT f = hs - 1 /\ V_SHIFT f = vs - 1 /\ hs <= 2 /\ vs <= 2;
  sh_w0 : vc_width c0 = w; sh_h0 : vc_height c0 = h;
  sh_w1 : vc_width c1 = w / hs; sh_h1 : vc_height c1 = h / vs;
  sh_w2 : vc_width c2 = w / hs; sh_h2 : vc_height c2 = h / vs;
  sh_ok0 : comp_ok b c0 0 (vc_offset c1);
  sh_ok1 : comp_ok b c1 (vc_offset c1) (vc_offset c2);
  sh_ok2 : comp_ok b c2 (vc_offset c2) (size_for_format f w h);
  sh_mid : vc_offset c1 <= vc_offset c2 <= size_for_format f w h;
  sh_gap : exists q, vc_offset c2 - vc_offset c1 = q * b }.

Lemma shape_ok f hs vs b bits w h : In (f, (hs, vs, b, bits)) pattern_table -> 0 <= w -> 0 <= h ->
  exists px c0 c1 c2, shape f w h hs vs b bits px c0 c1 c2.
Proof.
  intros Hin Hw Hh.
  assert (T : In (f, Planar hs vs b) pictures /\ (b = 1 \/ b = 2) /\ ((b = 1 /\ bits = 8) \/ (b = 2 /\ 8 <= bits <= 16)) /\
    (0 < hs /\ 0 < vs /\ H_SHIFT f = hs - 1 /\ V_SHIFT f = vs - 1 /\ hs <= 2 /\ vs <= 2) /\
    px_lookup pixel_ranges f = Some (mkPx b (black bits) (luma_span bits) (neutral bits) (neutral bits) bits)).
  { unfold pattern_table in Hin. cbn [In] in Hin.
    repeat (destruct Hin as [Hin|Hin]; [injection Hin as <- <- <- <- <-; (split; [vm_compute; tauto|]); (split; [lia|]); (split; [lia|]);
      (split; [|vm_compute; reflexivity]); repeat split; vm_compute; congruence|]). destruct Hin. }
  destruct T as (Hp & Hb & Hbits & Hs & Hpx). destruct Hs as (Hs1 & Hs2 & Hs3 & Hs4 & Hs5).
  destruct (planar_shape f hs vs b w h Hp Hw Hh) as (o1 & o2 & o3 & EC).
  pose proof (components_tile f w h Hw Hh) as HT. rewrite EC in HT.
  pose proof (floor_mul w h hs vs Hs1 Hs2 Hw Hh) as FM.
  assert (W : 0 <= w / hs) by (apply Z.div_pos; assumption). assert (H : 0 <= h / vs) by (apply Z.div_pos; assumption).
  eexists. do 3 eexists. econstructor; try eassumption; try reflexivity.
  - exact (conj Hs1 (conj Hs2 (conj Hs3 (conj Hs4 Hs5)))).
  - cbn [tiles vc_offset vc_length] in HT. unfold comp_ok. cbn [vc_offset vc_stride vc_width vc_height vc_length].
    clear - HT Hw Hh. split; [lia|]. split; [lia|]. split; [reflexivity|]. split; [lia|]. split; [lia|].
    replace (h * (w * b)) with (w * h * b) by ring. lia.
  - cbn [tiles vc_offset vc_length] in HT. unfold comp_ok. cbn [vc_offset vc_stride vc_width vc_height vc_length].
    assert (0 <= w * h * b) by (clear - Hw Hh Hb; destruct Hb; subst b; nia).
    assert (h / vs * (w / hs * b) <= w * h / (hs * vs) * b).
    { replace (h / vs * (w / hs * b)) with (w / hs * (h / vs) * b) by ring. apply Z.mul_le_mono_nonneg_r; [clear - Hb; lia|exact FM]. }
    set (q := w * h / (hs * vs) * b) in *. set (w' := w / hs) in *. set (h' := h / vs) in *. set (z := h' * (w' * b)) in *.
    clearbody q z. clear - HT H0 H1 W H. split; [lia|]. split; [lia|]. split; [reflexivity|]. split; [lia|]. split; [lia|]. lia.
  - cbn [tiles vc_offset vc_length] in HT. unfold comp_ok. cbn [vc_offset vc_stride vc_width vc_height vc_length].
    assert (0 <= w * h * b) by (clear - Hw Hh Hb; destruct Hb; subst b; nia).
    assert (h / vs * (w / hs * b) <= w * h / (hs * vs) * b).
    { replace (h / vs * (w / hs * b)) with (w / hs * (h / vs) * b) by ring. apply Z.mul_le_mono_nonneg_r; [clear - Hb; lia|exact FM]. }
    assert (0 <= h / vs * (w / hs * b)) by (clear - W H Hb; destruct Hb; subst b; nia).
    set (q := w * h / (hs * vs) * b) in *. set (w' := w / hs) in *. set (h' := h / vs) in *. set (z := h' * (w' * b)) in *.
    clearbody q z. clear - HT H0 H1 H2 W H. split; [lia|]. split; [lia|]. split; [reflexivity|]. split; [lia|]. split; [lia|]. lia.
  - cbn [tiles vc_offset vc_length] in HT. cbn [vc_offset].
    assert (0 <= w * h / (hs * vs) * b).
    { apply Z.mul_nonneg_nonneg; [|clear - Hb; lia]. apply Z.div_pos; [clear - Hw Hh; nia|clear - Hs1 Hs2; nia]. }
    set (q := w * h / (hs * vs) * b) in *. clearbody q. clear - HT H0. lia.
  - cbn [tiles vc_offset vc_length] in HT. cbn [vc_offset]. exists (w * h / (hs * vs)).
    set (q := w * h / (hs * vs) * b) in *. clearbody q. clear - HT. lia.
Qed.
