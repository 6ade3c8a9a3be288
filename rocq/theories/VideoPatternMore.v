(** Luma steps and the moving bar. *)
From Verif Require Import Base BaseProofs CogEnums VideoLayout LayoutSpec LayoutProofs NpView NpViewProofs GsfPrimProofs
  PatternTime Tone VideoPattern PatternSpec VideoPatternProofs VideoPatternFacts.
From Coq Require Import Lia ZifyBool ZifyNat.
Ltac Zify.zify_post_hook ::= Z.div_mod_to_equations.

(** Writing single bytes. *)
Definition put_item (d : bytes) (w : Z * Z) : res bytes := set_item d (fst w) (snd w).

Lemma for_flat {A B S} (g : S -> B -> res S) (f : A -> list B) : forall l s,
  for_each (fun s x => for_each g s (f x)) s l = for_each g s (flat_map f l).
Proof.
  induction l as [|x l IH]; intros s; [reflexivity|]. cbn [for_each flat_map]. rewrite for_app.
  destruct (for_each g s (f x)) as [s'|e]; cbn [rbind]; [apply IH|reflexivity].
Qed.

Lemma rbind_ok {A} (m : res A) : rbind m Ok = m.
Proof. now destruct m. Qed.

Lemma items_ok (F : Z -> Z) lo hi : forall ws d, 0 <= lo -> hi <= zlen d ->
  (forall w, In w ws -> lo <= fst w < hi /\ snd w = F (fst w) /\ 0 <= snd w < 256) ->
  exists d', for_each put_item d ws = Ok d' /\ zlen d' = zlen d /\
    (forall i, 0 <= i -> ~ (lo <= i < hi) -> byte_at d' i = byte_at d i) /\
    (forall i, 0 <= i -> byte_at d i = F i -> byte_at d' i = F i) /\
    (forall w, In w ws -> byte_at d' (fst w) = F (fst w)).
Proof.
  intros ws d Hlo. revert d. induction ws as [|[i v] ws IH]; intros d Hd Hws.
  - exists d. repeat split; try tauto. intros w [].
  - destruct (Hws (i, v) (or_introl eq_refl)) as (Hi & Hv & Hb). cbn [fst snd] in *.
    assert (E : put_item d (i, v) = Ok (set_slice d i (i + 1) [v])).
    { unfold put_item, set_item. cbn [fst snd]. replace (i <? zlen d) with true by lia. cbn [negb].
      replace ((0 <=? v) && (v <? 256)) with true by lia. reflexivity. }
    assert (HL : zlen (set_slice d i (i + 1) [v]) = zlen d) by (apply slice_len; [lia|reflexivity|lia]).
    destruct (IH (set_slice d i (i + 1) [v])) as (d' & R & L & U & K & W); [lia|intros w Hw; apply Hws; now right|].
    exists d'. cbn [for_each]. rewrite E. cbn [rbind]. split; [exact R|]. split; [lia|]. split.
    { intros j Hj Hn. rewrite U by assumption. apply slice_out; [lia|reflexivity|lia|exact Hj|lia]. }
    assert (Hset : byte_at (set_slice d i (i + 1) [v]) i = F i).
    { rewrite slice_in; [|lia|reflexivity|lia|lia]. rewrite Z.sub_diag. exact Hv. }
    split.
    + intros j Hj HF. apply K; [exact Hj|]. destruct (Z.eq_dec j i) as [->|N]; [exact Hset|].
      rewrite slice_out; [exact HF|lia|reflexivity|lia|exact Hj|lia].
    + intros w [<- | Hw]; [|now apply W]. cbn [fst]. apply K; [lia|exact Hset].
Qed.

(** The chroma loops as a list of bytes to write. *)
Definition sample_items (b p v : Z) : list (Z * Z) :=
  if b =? 1 then [(p, v)] else [(p + 0, Z.land v 0xFF); (p + 1, Z.land (Z.shiftr v 8) 0xFF)].
Definition chroma_items (b v : Z) (c1 c2 : vcomp) : list (Z * Z) :=
  flat_map (fun y => flat_map (fun x =>
    sample_items b (vc_offset c1 + y * vc_stride c1 + b * x) v ++ sample_items b (vc_offset c2 + y * vc_stride c2 + b * x) v)
    (zrange (vc_width c1))) (zrange (vc_height c1)).

Lemma put_chroma_items px c1 c2 d : px_bpp px = 1 \/ px_bpp px = 2 ->
  put_chroma px c1 c2 d = for_each put_item d (chroma_items (px_bpp px) (px_u px) c1 c2).
Proof.
  intros Hb. unfold put_chroma, chroma_items. rewrite <- for_flat. apply for_ext. intros y s _. rewrite <- for_flat.
  apply for_ext. intros x s' _. destruct Hb as [E|E]; rewrite E; cbn [Z.eqb Pos.eqb]; unfold sample_items; cbn [Z.eqb Pos.eqb app for_each].
  - unfold put_item. cbn [fst snd]. rewrite !Z.mul_1_l.
    destruct (set_item s' _ _) as [s1|]; cbn [rbind]; [|reflexivity]. symmetry. apply rbind_ok.
  - unfold put_item. cbn [fst snd].
    destruct (set_item s' _ _) as [s1|]; cbn [rbind]; [|reflexivity].
    destruct (set_item s1 _ _) as [s2|]; cbn [rbind]; [|reflexivity].
    destruct (set_item s2 _ _) as [s3|]; cbn [rbind]; [|reflexivity]. symmetry. apply rbind_ok.
Qed.

(** Every sample gets the same bytes, so a byte of the chroma components depends only on its place in its sample. *)
Definition chroma_byte (b v off i : Z) : Z := byte_at (le b v) ((i - off) mod b).

Lemma sample_items_ok b v off p q : b = 1 \/ b = 2 -> (b = 1 -> 0 <= v < 256) -> p - off = q * b -> forall w, In w (sample_items b p v) ->
  p <= fst w < p + b /\ snd w = chroma_byte b v off (fst w) /\ 0 <= snd w < 256.
Proof.
  intros [-> | ->] Hv Hq w Hw; unfold sample_items in Hw; cbn [Z.eqb Pos.eqb In] in Hw; unfold chroma_byte.
  - destruct Hw as [<- | []]. cbn [fst snd]. split; [lia|]. split; [|now apply Hv]. rewrite Z.mod_1_r. reflexivity.
  - destruct Hw as [<- | [<- | []]]; cbn [fst snd].
    + split; [lia|]. split; [|apply byte_land]. replace ((p + 0 - off) mod 2) with 0 by lia. reflexivity.
    + split; [lia|]. split; [|apply byte_land]. replace ((p + 1 - off) mod 2) with 1 by lia. reflexivity.
Qed.

Lemma sample_items_all b v p j : b = 1 \/ b = 2 -> 0 <= j < b -> exists w, In w (sample_items b p v) /\ fst w = p + j.
Proof.
  intros [-> | ->] Hj; unfold sample_items; cbn [Z.eqb Pos.eqb].
  - eexists. split; [left; reflexivity|]. cbn [fst]. lia.
  - assert (j = 0 \/ j = 1) as [-> | ->] by lia.
    + eexists. split; [left; reflexivity|]. reflexivity.
    + eexists. split; [right; left; reflexivity|]. reflexivity.
Qed.

Lemma chroma_ok b v c1 c2 size d : b = 1 \/ b = 2 -> (b = 1 -> 0 <= v < 256) -> comp_ok b c1 (vc_offset c1) (vc_offset c2) ->
  comp_ok b c2 (vc_offset c2) size -> vc_offset c1 <= vc_offset c2 <= size -> size <= zlen d ->
  vc_width c2 = vc_width c1 -> vc_height c2 = vc_height c1 -> (exists q, vc_offset c2 - vc_offset c1 = q * b) ->
  exists d', for_each put_item d (chroma_items b v c1 c2) = Ok d' /\ zlen d' = zlen d /\
    (forall i, 0 <= i < vc_offset c1 -> byte_at d' i = byte_at d i) /\
    (forall c x y, c = c1 \/ c = c2 -> 0 <= x < vc_width c -> 0 <= y < vc_height c -> pixel b c d' x y = little_endian (le b v)).
Proof.
  intros Hb Hv O1 O2 Mid Hd EW EH [q Hq]. set (F := chroma_byte b v (vc_offset c1)).
  assert (S1 : vc_stride c1 = vc_width c1 * b) by (destruct O1 as (_ & _ & E & _); exact E).
  assert (S2 : vc_stride c2 = vc_width c2 * b) by (destruct O2 as (_ & _ & E & _); exact E).
  assert (P0 : 0 <= vc_offset c1) by (destruct O1 as (E & _); exact E).
  destruct (items_ok F (vc_offset c1) size (chroma_items b v c1 c2) d P0 Hd) as (d' & R & L & U & _ & W).
  { intros w Hw. unfold chroma_items in Hw. apply in_flat_map in Hw. destruct Hw as (y & Hy & Hw). apply in_flat_map in Hw.
    destruct Hw as (x & Hx & Hw). apply in_zrange in Hy. apply in_zrange in Hx. apply in_app_or in Hw. destruct Hw as [Hw|Hw].
    - destruct (sample_pos b c1 _ _ x y Hb O1 Hx Hy) as (P1 & P2 & P3 & P4).
      assert (Q : vc_offset c1 + y * vc_stride c1 + b * x - vc_offset c1 = (y * vc_width c1 + x) * b) by (rewrite S1; ring).
      destruct (sample_items_ok b v _ _ _ Hb Hv Q w Hw) as (X1 & X2 & X3). split; [|split; assumption].
      rewrite (Z.mul_comm b x) in X1. clear - X1 P1 P2 Mid. lia.
    - assert (Hx2 : 0 <= x < vc_width c2) by (rewrite EW; exact Hx). assert (Hy2 : 0 <= y < vc_height c2) by (rewrite EH; exact Hy).
      destruct (sample_pos b c2 _ _ x y Hb O2 Hx2 Hy2) as (P1 & P2 & P3 & P4).
      assert (Q : vc_offset c2 + y * vc_stride c2 + b * x - vc_offset c1 = (q + y * vc_width c2 + x) * b).
      { rewrite S2. replace (vc_offset c2) with (vc_offset c1 + q * b) by (clear - Hq; lia). ring. }
      destruct (sample_items_ok b v _ _ _ Hb Hv Q w Hw) as (X1 & X2 & X3). split; [|split; assumption].
      rewrite (Z.mul_comm b x) in X1. clear - X1 P1 P2 Mid. lia. }
  exists d'. split; [exact R|]. split; [exact L|]. split; [intros i Hi; apply U; clear - Hi; lia|].
  intros c x y Hc Hx Hy.
  assert (HC : exists lo hi, comp_ok b c lo hi /\ hi <= size /\ vc_width c = vc_width c1 /\ vc_height c = vc_height c1 /\
    vc_stride c = vc_width c * b /\ exists r, vc_offset c - vc_offset c1 = r * b).
  { destruct Hc as [-> | ->].
    - exists (vc_offset c1), (vc_offset c2). repeat split; try assumption; try apply O1; [apply Mid|]. exists 0. ring.
    - exists (vc_offset c2), size. repeat split; try assumption; try apply O2; [apply Z.le_refl|]. now exists q. }
  destruct HC as (lo & hi & OC & Hhi & EWc & EHc & ES & (r & Hr)).
  destruct (sample_pos b c lo hi x y Hb OC Hx Hy) as (P1 & P2 & P3 & P4). assert (P5 := proj1 OC).
  apply pixel_at; [clear - P1 P5; lia|clear - P2 Hhi Hd L; lia|apply le_len; exact Hb|]. intros j Hj.
  destruct (sample_items_all b v (vc_offset c + y * vc_stride c + b * x) j Hb Hj) as (w & Hw & Ew).
  assert (HI : In w (chroma_items b v c1 c2)).
  { unfold chroma_items. apply in_flat_map. exists y. split; [apply in_zrange; rewrite <- EHc; exact Hy|].
    apply in_flat_map. exists x. split; [apply in_zrange; rewrite <- EWc; exact Hx|]. apply in_or_app.
    destruct Hc as [-> | ->]; [left|right]; exact Hw. }
  specialize (W w HI). rewrite Ew in W. rewrite (Z.mul_comm b x) in W. rewrite W. unfold F, chroma_byte. f_equal.
  replace (vc_offset c + y * vc_stride c + x * b + j - vc_offset c1) with (j + (r + y * vc_width c + x) * b).
  - rewrite Z.mod_add by (clear - Hb; lia). apply Z.mod_small. exact Hj.
  - rewrite ES. replace (vc_offset c) with (vc_offset c1 + r * b) by (clear - Hr; lia). ring.
Qed.

(** Steps. *)
Lemma step_line_ok b bits width : b = 1 \/ b = 2 -> width = 0 \/ 8 <= width ->
  step_line (mkPx b (black bits) (luma_span bits) (neutral bits) (neutral bits) bits) width =
  Ok (line_bytes b (fun x => if b =? 1 then Z.land (step_level bits width x) 0xFF else step_level bits width x) width).
Proof.
  intros Hb Hw. unfold step_line. cbn [px_bpp px_y px_range]. rewrite <- fill_line; [|exact Hb|lia|].
  - apply for_ext. intros x s Hx. apply in_zrange in Hx. unfold floordiv. replace (width / 8 =? 0) with false by lia. cbn [rbind].
    unfold step_level. destruct Hb as [-> | ->]; cbn [Z.eqb Pos.eqb]; [|reflexivity]. unfold put_sample. cbn [Z.eqb Pos.eqb]. reflexivity.
  - intros -> x Hx. cbn [Z.eqb Pos.eqb]. apply byte_land.
Qed.

Lemma steps_ok f hs vs b bits w h : In (f, (hs, vs, b, bits)) pattern_table -> 0 <= h -> w = 0 \/ 8 <= w ->
  exists data c0 c1 c2, luma_steps f w h = Ok data /\ zlen data = size_for_format f w h /\
    components_for_format f w h = [c0; c1; c2] /\
    (forall x y, 0 <= x < w -> 0 <= y < h -> pixel b c0 data x y = step_level bits w x mod 2 ^ (8 * b)) /\
    (forall c x y, In c [c1; c2] -> 0 <= x < vc_width c -> 0 <= y < vc_height c -> pixel b c data x y = neutral bits).
Proof.
  intros Hin Hh Hw8. assert (Hw : 0 <= w) by lia.
  destruct (shape_ok f hs vs b bits w h Hin Hw Hh) as (px & c0 & c1 & c2 & S).
  destruct S as [Epx Enum EC Hb Hbits Hsub W0 H0 W1 H1 W2 H2 O0 O1 O2 Mid Gap].
  unfold luma_steps. rewrite Epx, new_video_zeros by assumption. cbn [rbind]. rewrite EC, Enum.
  rewrite step_line_ok by assumption. cbn [rbind px_bpp].
  rewrite put_chroma_items by exact Hb. cbn [px_bpp px_u].
  set (v := fun x => if b =? 1 then Z.land (step_level bits w x) 0xFF else step_level bits w x).
  pose proof (size_nonneg f w h Hw Hh) as HSz. assert (Z0 := zlen_zeros' _ HSz).
  set (d0 := zeros (Z.to_nat (size_for_format f w h))) in *.
  assert (D0 : vc_offset c1 <= zlen d0) by (clear - Z0 Mid; lia).
  destruct (component_filled b c0 _ _ v d0 Hb O0 D0) as (A1 & A2 & A3).
  assert (Ed : fold_left (put_row b c0 (line_bytes b v w)) (zrange h) d0 = put_rows b c0 (line_bytes b v (vc_width c0)) d0).
  { unfold put_rows. rewrite W0, H0. reflexivity. }
  rewrite Ed. set (d1 := put_rows b c0 (line_bytes b v (vc_width c0)) d0) in *.
  assert (Hn : b = 1 -> 0 <= neutral bits < 256).
  { intros E. assert (bits = 8) by (clear - Hbits E; lia). subst bits. unfold neutral. change (2 ^ (8 - 8)) with 1. lia. }
  assert (D1 : size_for_format f w h <= zlen d1) by (clear - A1 Z0; lia).
  destruct (chroma_ok b (neutral bits) c1 c2 _ d1 Hb Hn O1 O2 Mid D1 (eq_trans W2 (eq_sym W1)) (eq_trans H2 (eq_sym H1)) Gap) as (d2 & R & L & U & P).
  exists d2, c0, c1, c2. split; [exact R|]. split; [clear - L A1 Z0; lia|]. split; [reflexivity|]. split.
  - intros x y Hx Hy. rewrite <- W0 in Hx. rewrite <- H0 in Hy.
    assert (Hu : forall i, 0 <= i < vc_offset c1 -> byte_at d2 i = byte_at d1 i) by exact U.
    rewrite (pixel_untouched b c0 _ _ d1 d2 x y Hb O0); [|clear - D1 Mid; lia|exact L|exact Hx|exact Hy|exact Hu].
    rewrite A3 by assumption. unfold v. destruct Hb as [-> | ->]; cbn [Z.eqb Pos.eqb].
    + rewrite le_val; [|now left|intros _; apply byte_land]. change (2 ^ (8 * 1)) with 256. change 0xFF with 255.
      rewrite land255. apply Z.mod_mod. lia.
    + apply le_val; [now right|discriminate].
  - intros c x y Hc Hx Hy. rewrite (P c x y); [|destruct Hc as [->|[->|[]]]; [now left|now right]|exact Hx|exact Hy].
    rewrite le_val by assumption. apply Z.mod_small. clear - Hbits. unfold neutral.
    destruct Hbits as [[-> ->]|[-> Hbits]]; [vm_compute; split; congruence|].
    change (2 ^ (8 * 2)) with (128 * 2 ^ 9). assert (0 < 2 ^ (bits - 8)) by (apply Z.pow_pos_nonneg; lia).
    assert (2 ^ (bits - 8) < 2 ^ 9) by (apply Z.pow_lt_mono_r; lia). lia.
Qed.

(** With a width that is a multiple of eight the steps are eighths of the span. *)
Lemma step_eighths bits w x pos : 8 <= bits <= 16 -> 0 < w -> w mod 8 = 0 -> 0 <= pos < 8 -> pos * w <= 8 * x < (pos + 1) * w ->
  step_level bits w x = black bits + pos * luma_span bits / 8 /\ black bits <= step_level bits w x < 235 * 2 ^ (bits - 8).
Proof.
  intros Hbits Hw Hm Hpos Hp. unfold step_level. assert (Ep : x / (w / 8) = pos).
  { assert (Hwc : w = 8 * (w / 8)) by lia. set (q := w / 8) in *. clearbody q.
    symmetry. apply (Z.div_unique_pos x q pos (x - q * pos)); [|ring]. rewrite Hwc in Hp. clear - Hp. lia. }
  rewrite Ep. split; [reflexivity|]. unfold black, luma_span. assert (0 < 2 ^ (bits - 8)) by (apply Z.pow_pos_nonneg; lia).
  set (k := 2 ^ (bits - 8)) in *. clearbody k. assert (0 <= pos * (219 * k) <= 7 * (219 * k)) by nia.
  set (p := pos * (219 * k)) in *. clearbody p. lia.
Qed.

Lemma steps_fail f hs vs b bits w h : In (f, (hs, vs, b, bits)) pattern_table -> 0 <= h -> 0 < w < 8 -> luma_steps f w h = Err EZeroDiv.
Proof.
  intros Hin Hh Hw8. assert (Hw : 0 <= w) by lia.
  destruct (shape_ok f hs vs b bits w h Hin Hw Hh) as (px & c0 & c1 & c2 & S).
  destruct S as [Epx Enum EC Hb _ _ _ _ _ _ _ _ _ _ _ _ _].
  unfold luma_steps. rewrite Epx, new_video_zeros by assumption. cbn [rbind]. rewrite EC. unfold step_line.
  assert (Ez : zrange w = [0] ++ map (fun x => 1 + x) (zrange (w - 1))).
  { replace w with (1 + (w - 1)) at 1 by lia. apply zrange_app; lia. }
  rewrite Ez. cbn [app for_each]. unfold floordiv. replace (w / 8 =? 0) with true by lia. reflexivity.
Qed.

(** The moving bar. *)
Lemma bar_row_line b v w : b = 1 \/ b = 2 -> 0 <= v < 2 ^ (8 * b) -> bar_row b v w = line_bytes b (fun _ => v) w.
Proof.
  intros Hb Hv. unfold bar_row, line_bytes. rewrite !flat_map_concat_map. f_equal. apply map_ext. intros _.
  destruct Hb as [-> | ->]; unfold le; cbn [Z.eqb Pos.eqb Z.gtb Z.compare Pos.compare Pos.compare_cont].
  - change (2 ^ (8 * 1)) with 256 in Hv. change 0xFF with 255. rewrite land255, Z.mod_small by lia. reflexivity.
  - change (2 ^ (8 * 2)) with 65536 in Hv. do 2 f_equal. change 0xFF with 255. rewrite land255, shiftr8, Z.mod_small by lia. reflexivity.
Qed.

Lemma for_rows {A} (f : bytes -> Z -> bytes) (g : A -> Z) : forall l d, for_each (fun d y => Ok (f d (g y))) d l = Ok (fold_left f (map g l) d).
Proof. induction l as [|x l IH]; intros d; [reflexivity|]. cbn [for_each map fold_left rbind]. apply IH. Qed.

Lemma in_bar first rows h y : 0 < h -> In y (map (fun t => (first + t) mod h) (zrange rows)) <-> exists t, 0 <= t < rows /\ y = (first + t) mod h.
Proof.
  intros Hh. rewrite in_map_iff. split.
  - intros (t & E & Ht). apply in_zrange in Ht. exists t. now split.
  - intros (t & Ht & E). exists t. split; [now symmetry|now apply in_zrange].
Qed.

Lemma rows_pixels b c lo hi v ys d : b = 1 \/ b = 2 -> comp_ok b c lo hi -> hi <= zlen d -> (forall y, In y ys -> 0 <= y < vc_height c) ->
  let d' := fold_left (put_row b c (line_bytes b (fun _ => v) (vc_width c))) ys d in
  zlen d' = zlen d /\ (forall i, 0 <= i -> ~ (lo <= i < hi) -> byte_at d' i = byte_at d i) /\
  (forall x y, 0 <= x < vc_width c -> 0 <= y < vc_height c ->
    (In y ys -> pixel b c d' x y = little_endian (le b v)) /\ (~ In y ys -> pixel b c d' x y = pixel b c d x y)).
Proof.
  intros Hb HC Hd Hys d'. pose proof HC as (L0 & _ & _ & Hw & _).
  assert (HL := line_len b (fun _ => v) (vc_width c) Hb Hw).
  destruct (rows_fold b c lo hi _ Hb HC HL ys d Hd Hys) as (R1 & R2 & R3).
  split; [exact R1|]. split; [exact R2|]. intros x y Hx Hy.
  destruct (sample_pos b c lo hi x y Hb HC Hx Hy) as (P1 & P2 & P3 & P4). split; intros HI.
  - apply pixel_at; [lia|unfold d'; lia|apply le_len; exact Hb|].
    intros j Hj. unfold d'. rewrite <- Z.add_assoc. rewrite R3 by lia. destruct (in_dec Z.eq_dec y ys) as [_|N]; [|contradiction].
    apply (byte_line b (fun _ => v)); assumption.
  - apply pixel_same; [exact Hb|lia|lia|exact R1|]. intros j Hj. unfold d'. rewrite <- !Z.add_assoc.
    replace (vc_offset c + (y * vc_stride c + (x * b + j))) with (vc_offset c + y * vc_stride c + (x * b + j)) by ring.
    rewrite R3 by lia. destruct (in_dec Z.eq_dec y ys) as [N|_]; [contradiction|reflexivity].
Qed.

(** Rows of two components written alternately. *)
Lemma rows_pair b c1 c2 lo1 hi1 lo2 hi2 l1 l2 : b = 1 \/ b = 2 -> comp_ok b c1 lo1 hi1 -> comp_ok b c2 lo2 hi2 -> hi1 <= lo2 -> lo2 <= hi2 ->
  zlen l1 = vc_width c1 * b -> zlen l2 = vc_width c2 * b -> forall ys d, hi2 <= zlen d -> 
  (forall y, In y ys -> 0 <= y < vc_height c1) -> (forall y, In y ys -> 0 <= y < vc_height c2) ->
  fold_left (fun d y => put_row b c2 l2 (put_row b c1 l1 d y) y) ys d =
  fold_left (put_row b c2 l2) ys (fold_left (put_row b c1 l1) ys d).
Proof.
  intros Hb O1 O2 H12 H22 L1 L2.
  assert (Comm : forall y y' d, hi2 <= zlen d -> 0 <= y < vc_height c1 -> 0 <= y' < vc_height c2 ->
    put_row b c1 l1 (put_row b c2 l2 d y') y = put_row b c2 l2 (put_row b c1 l1 d y) y').
  { intros y y' d Hd Hy Hy'. destruct (row_bounds b c1 lo1 hi1 y Hb O1 Hy) as (A1 & A2 & A3).
    destruct (row_bounds b c2 lo2 hi2 y' Hb O2 Hy') as (B1 & B2 & B3).
    assert (E1 : forall d, hi2 <= zlen d -> zlen (put_row b c1 l1 d y) = zlen d) by (intros; apply row_len; [lia|exact L1|lia]).
    assert (E2 : forall d, hi2 <= zlen d -> zlen (put_row b c2 l2 d y') = zlen d) by (intros; apply row_len; [lia|exact L2|lia]).
    pose proof (E1 d Hd) as F1. pose proof (E2 d Hd) as F2.
    assert (G1 := E1 (put_row b c2 l2 d y')). assert (G2 := E2 (put_row b c1 l1 d y)).
    apply bytes_ext; [rewrite G1, G2 by lia; lia|]. rewrite G1 by lia. intros i Hi.
    unfold put_row in *. set (p1 := vc_offset c1 + y * vc_stride c1) in *. set (p2 := vc_offset c2 + y' * vc_stride c2) in *.
    destruct (Z_lt_dec i (p1 + vc_width c1 * b)) as [X|X]; [destruct (Z_le_dec p1 i) as [Y|Y]|].
    - rewrite slice_in by lia. rewrite slice_out by lia. now rewrite slice_in by lia.
    - rewrite !(slice_out _ p1) by lia. rewrite !(slice_out _ p2) by lia. now rewrite slice_out by lia.
    - rewrite (slice_out _ p1) by lia. destruct (Z_lt_dec i p2) as [Y|Y]; [|destruct (Z_lt_dec i (p2 + vc_width c2 * b)) as [Z|Z]].
      + rewrite !(slice_out _ p2) by lia. now rewrite slice_out by lia.
      + rewrite !(slice_in _ p2) by lia. reflexivity.
      + rewrite !(slice_out _ p2) by lia. now rewrite slice_out by lia. }
  assert (Move : forall ys y' d, hi2 <= zlen d -> (forall y, In y ys -> 0 <= y < vc_height c1) -> 0 <= y' < vc_height c2 ->
    fold_left (put_row b c1 l1) ys (put_row b c2 l2 d y') = put_row b c2 l2 (fold_left (put_row b c1 l1) ys d) y').
  { induction ys as [|y ys IH]; intros y' d Hd Hys Hy'; [reflexivity|]. cbn [fold_left].
    assert (Hy := Hys y (or_introl eq_refl)). destruct (row_bounds b c1 lo1 hi1 y Hb O1 Hy) as (A1 & A2 & A3).
    rewrite Comm by assumption. apply IH; [|intros z Hz; apply Hys; now right|exact Hy'].
    rewrite row_len; [exact Hd|exact A2|exact L1|lia]. }
  induction ys as [|y ys IH]; intros d Hd Hys1 Hys2; [reflexivity|]. cbn [fold_left].
  assert (Hy1 := Hys1 y (or_introl eq_refl)). assert (Hy2 := Hys2 y (or_introl eq_refl)).
  destruct (row_bounds b c1 lo1 hi1 y Hb O1 Hy1) as (A1 & A2 & A3). destruct (row_bounds b c2 lo2 hi2 y Hb O2 Hy2) as (B1 & B2 & B3).
  assert (E1 : zlen (put_row b c1 l1 d y) = zlen d) by (apply row_len; [exact A2|exact L1|lia]).
  rewrite IH; [|rewrite row_len; [lia|exact B2|exact L2|lia]|intros z Hz; apply Hys1; now right|intros z Hz; apply Hys2; now right].
  f_equal. apply Move; [lia|intros z Hz; apply Hys1; now right|exact Hy2].
Qed.

Lemma shift_half x s : 0 < s <= 2 -> Z.shiftr x (s - 1) = x / s.
Proof.
  intros H. assert (s = 1 \/ s = 2) as [-> | ->] by lia.
  - change (1 - 1) with 0. rewrite Z.shiftr_0_r. now rewrite Z.div_1_r.
  - change (2 - 1) with 1. rewrite Z.shiftr_div_pow2 by lia. reflexivity.
Qed.

Lemma overlay_ok f hs vs b bits w h bar fnum data : In (f, (hs, vs, b, bits)) pattern_table -> 0 <= w -> 0 < h / vs -> 0 <= h ->
  zlen data = size_for_format f w h ->
  exists data' c0 c1 c2, overlay f w h bar fnum data = Ok data' /\ zlen data' = zlen data /\ components_for_format f w h = [c0; c1; c2] /\
    (forall x y, 0 <= x < w -> 0 <= y < h ->
      (covered fnum bar h y -> pixel b c0 data' x y = black bits) /\
      (~ covered fnum bar h y -> pixel b c0 data' x y = pixel b c0 data x y)) /\
    (forall c x y, In c [c1; c2] -> 0 <= x < w / hs -> 0 <= y < h / vs ->
      (covered (fnum / vs) (bar / vs) (h / vs) y -> pixel b c data' x y = neutral bits) /\
      (~ covered (fnum / vs) (bar / vs) (h / vs) y -> pixel b c data' x y = pixel b c data x y)).
Proof.
  intros Hin Hw Hhv Hh HD. destruct (shape_ok f hs vs b bits w h Hin Hw Hh) as (px & c0 & c1 & c2 & S).
  destruct S as [Epx Enum EC Hb Hbits Hsub W0 H0 W1 H1 W2 H2 O0 O1 O2 Mid Gap].
  destruct Hsub as (Hs1 & Hs2 & Hs3 & Hs4 & Hs5 & Hs6).
  assert (Hh0 : 0 < h). { destruct (Z.eq_dec h 0) as [E|N]; [|clear - Hh N; lia]. rewrite E, Z.div_0_l in Hhv by (clear - Hs2; lia). clear - Hhv; lia. }
  assert (Hblack : 0 <= black bits < 2 ^ (8 * b) /\ 0 <= neutral bits < 2 ^ (8 * b)).
  { clear - Hbits. unfold black, neutral. destruct Hbits as [[-> ->]|[-> Hbits]]; [vm_compute; repeat split; congruence|].
    change (2 ^ (8 * 2)) with (128 * 2 ^ 9). assert (0 < 2 ^ (bits - 8)) by (apply Z.pow_pos_nonneg; lia).
    assert (2 ^ (bits - 8) < 2 ^ 9) by (apply Z.pow_lt_mono_r; lia). lia. }
  destruct Hblack as [HB HN].
  unfold overlay. rewrite Epx, EC, Enum. cbn [px_bpp px_y px_u px_v]. rewrite Hs3, Hs4.
  rewrite !shift_half by (clear - Hs1 Hs2 Hs5 Hs6; lia).
  rewrite !bar_row_line by assumption.
  unfold put_bar. rewrite H0, H1, H2.
  replace (h =? 0) with false by (clear - Hh0; lia). replace (h / vs =? 0) with false by (set (q := h / vs) in *; clearbody q; clear - Hhv; lia).
  rewrite (for_rows (fun d y => put_row b c0 (line_bytes b (fun _ => black bits) w) d y) (fun y => (fnum + y) mod h)). cbn [rbind].
  set (l := line_bytes b (fun _ => neutral bits) (w / hs)).
  rewrite (for_rows (fun d y => put_row b c2 l (put_row b c1 l d y) y) (fun y => (fnum / vs + y) mod (h / vs))).
  set (ys0 := map (fun y => (fnum + y) mod h) (zrange bar)). set (ys := map (fun y => (fnum / vs + y) mod (h / vs)) (zrange (bar / vs))).
  set (d1 := fold_left (fun d y => put_row b c0 (line_bytes b (fun _ => black bits) w) d y) ys0 data).
  assert (Y0 : forall y, In y ys0 -> 0 <= y < vc_height c0).
  { intros y Hy. unfold ys0 in Hy. apply in_map_iff in Hy. destruct Hy as (t & <- & _). rewrite H0. now apply Z.mod_pos_bound. }
  assert (Y1 : forall y, In y ys -> 0 <= y < vc_height c1).
  { intros y Hy. unfold ys in Hy. apply in_map_iff in Hy. destruct Hy as (t & <- & _). rewrite H1. now apply Z.mod_pos_bound. }
  assert (Y2 : forall y, In y ys -> 0 <= y < vc_height c2) by (rewrite H2, <- H1; exact Y1).
  assert (D0 : vc_offset c1 <= zlen data) by (rewrite HD; clear - Mid; lia).
  destruct (rows_pixels b c0 _ _ (black bits) ys0 data Hb O0 D0 Y0) as (A1 & A2 & A3). rewrite W0 in A1, A2, A3.
  change (fold_left (put_row b c0 (line_bytes b (fun _ => black bits) w)) ys0 data) with d1 in A1, A2, A3.
  assert (Wn : 0 <= w / hs) by (rewrite <- W1; destruct O1 as (_ & _ & _ & E & _); exact E).
  assert (HL := line_len b (fun _ => neutral bits) (w / hs) Hb Wn). fold l in HL.
  assert (D1 : size_for_format f w h <= zlen d1) by (rewrite A1, HD; apply Z.le_refl).
  rewrite (rows_pair b c1 c2 (vc_offset c1) (vc_offset c2) (vc_offset c2) (size_for_format f w h) l l Hb O1 O2 (Z.le_refl _) (proj2 Mid)
    (eq_trans HL (f_equal (fun z => z * b) (eq_sym W1))) (eq_trans HL (f_equal (fun z => z * b) (eq_sym W2))) ys d1 D1 Y1 Y2).
  assert (D1' : vc_offset c2 <= zlen d1) by (clear - D1 Mid; lia).
  destruct (rows_pixels b c1 _ _ (neutral bits) ys d1 Hb O1 D1' Y1) as (B1 & B2 & B3). rewrite W1 in B1, B2, B3. fold l in B1, B2, B3.
  set (d2 := fold_left (put_row b c1 l) ys d1) in *.
  assert (D2 : size_for_format f w h <= zlen d2) by (rewrite B1; exact D1).
  destruct (rows_pixels b c2 _ _ (neutral bits) ys d2 Hb O2 D2 Y2) as (C1 & C2 & C3). rewrite W2 in C1, C2, C3. fold l in C1, C2, C3.
  set (d3 := fold_left (put_row b c2 l) ys d2) in *.
  exists d3, c0, c1, c2. split; [reflexivity|]. split; [now rewrite C1, B1, A1|]. split; [reflexivity|].
  assert (P1 := proj1 O1). rewrite H1 in B3. rewrite H2 in C3. rewrite H0 in A3. clearbody d1 d2 d3.
  assert (V : forall v, 0 <= v < 2 ^ (8 * b) -> little_endian (le b v) = v).
  { intros v Hv. rewrite le_val; [now apply Z.mod_small|exact Hb|]. intros E. subst b. exact Hv. }
  split.
  - intros x y Hx Hy. destruct (A3 x y Hx Hy) as [I1 I2].
    assert (E : pixel b c0 d3 x y = pixel b c0 d1 x y).
    { rewrite (pixel_untouched b c0 _ _ d2 d3 x y Hb O0);
        [|clear - D2 Mid; lia|exact C1|rewrite W0; exact Hx|rewrite H0; exact Hy|intros i Hi; apply C2; clear - Hi Mid; lia].
      apply (pixel_untouched b c0 _ _ d1 d2 x y Hb O0);
        [clear - D1 Mid; lia|exact B1|rewrite W0; exact Hx|rewrite H0; exact Hy|intros i Hi; apply B2; clear - Hi Mid; lia]. }
    rewrite E. split; intros HC.
    + rewrite I1; [now apply V|]. now apply in_bar.
    + apply I2. intros HI. apply HC. now apply in_bar in HI.
  - intros c x y Hc Hx Hy. destruct Hc as [<- | [<- | []]].
    + destruct (B3 x y Hx Hy) as [I1 I2].
      assert (E : pixel b c1 d3 x y = pixel b c1 d2 x y).
      { apply (pixel_untouched b c1 _ _ d2 d3 x y Hb O1);
        [clear - D2 Mid; lia|exact C1|rewrite W1; exact Hx|rewrite H1; exact Hy|intros i Hi; apply C2; clear - Hi Mid P1; lia]. }
      assert (E0 : pixel b c1 d1 x y = pixel b c1 data x y).
      { apply (pixel_untouched b c1 _ _ data d1 x y Hb O1);
        [rewrite HD; clear - Mid; lia|exact A1|rewrite W1; exact Hx|rewrite H1; exact Hy|intros i Hi; apply A2; clear - Hi Mid P1; lia]. }
      rewrite E. split; intros HC.
      * rewrite I1; [now apply V|]. now apply in_bar.
      * rewrite <- E0. apply I2. intros HI. apply HC. now apply in_bar in HI.
    + destruct (C3 x y Hx Hy) as [I1 I2].
      assert (E0 : pixel b c2 d2 x y = pixel b c2 data x y).
      { rewrite (pixel_untouched b c2 _ _ d1 d2 x y Hb O2);
        [|exact D1|exact B1|rewrite W2; exact Hx|rewrite H2; exact Hy|intros i Hi; apply B2; clear - Hi Mid P1; lia].
        apply (pixel_untouched b c2 _ _ data d1 x y Hb O2);
        [rewrite HD; apply Z.le_refl|exact A1|rewrite W2; exact Hx|rewrite H2; exact Hy|intros i Hi; apply A2; clear - Hi Mid P1; lia]. }
      split; intros HC.
      * rewrite I1; [now apply V|]. now apply in_bar.
      * rewrite <- E0. apply I2. intros HI. apply HC. now apply in_bar in HI.
Qed.

(** A picture without chroma lines. *)
Lemma overlay_fails f hs vs b bits w h bar fnum data : In (f, (hs, vs, b, bits)) pattern_table -> 0 <= w -> 0 <= h -> h / vs = 0 ->
  0 < bar / vs -> overlay f w h bar fnum data = Err EZeroDiv.
Proof.
  intros Hin Hw Hh Hhv Hbar. destruct (shape_ok f hs vs b bits w h Hin Hw Hh) as (px & c0 & c1 & c2 & S).
  destruct S as [Epx Enum EC Hb Hbits Hsub W0 H0 W1 H1 W2 H2 O0 O1 O2 Mid Gap].
  destruct Hsub as (Hs1 & Hs2 & Hs3 & Hs4 & Hs5 & Hs6).
  unfold overlay. rewrite Epx, EC. rewrite Hs3, Hs4. rewrite !shift_half by (clear - Hs1 Hs2 Hs5 Hs6; lia).
  assert (Hbar0 : 0 < bar).
  { apply Z.nle_gt. intros L. apply (Z.lt_irrefl 0). eapply Z.lt_le_trans; [exact Hbar|].
    rewrite <- (Z.div_0_l vs) by (clear - Hs2; lia). apply Z.div_le_mono; assumption. }
  assert (Ez : forall n, 0 < n -> zrange n = [0] ++ map (fun x => 1 + x) (zrange (n - 1))).
  { intros n Hn. replace n with (1 + (n - 1)) at 1 by (clear; lia). apply zrange_app; clear - Hn; lia. }
  unfold put_bar. rewrite H0, H1, Hhv. destruct (Z.eqb_spec h 0) as [E|E].
  - rewrite (Ez _ Hbar0). reflexivity.
  - rewrite (for_rows (fun d y => put_row (px_bpp px) c0 (bar_row (px_bpp px) (px_y px) w) d y) (fun y => (fnum + y) mod h)). cbn [rbind].
    rewrite (Ez _ Hbar). reflexivity.
Qed.
