(** The pictures of the video patterns. *)
From Verif Require Import Base BaseProofs CogEnums VideoLayout LayoutSpec LayoutProofs NpView NpViewProofs GsfPrimProofs
  PatternTime Tone VideoPattern PatternSpec VideoPatternProofs.
From Coq Require Import Lia ZifyBool ZifyNat.
Ltac Zify.zify_post_hook ::= Z.div_mod_to_equations.

(** One sample. *)
Lemma le_val b v : b = 1 \/ b = 2 -> (b = 1 -> 0 <= v < 256) -> little_endian (le b v) = v mod 2 ^ (8 * b).
Proof.
  intros [-> | ->] Hv; unfold le; cbn [Z.eqb Pos.eqb little_endian].
  - change (2 ^ (8 * 1)) with 256. rewrite Z.mod_small; [lia|]. now apply Hv.
  - change 0xFF with 255. rewrite !land255, shiftr8. change (2 ^ (8 * 2)) with (256 * 256).
    rewrite Z.rem_mul_r by lia. lia.
Qed.

Lemma pixel_at b c d x y l : let pos := vc_offset c + y * vc_stride c + x * b in
  0 <= pos -> pos + b <= zlen d -> zlen l = b -> (forall j, 0 <= j < b -> byte_at d (pos + j) = byte_at l j) ->
  pixel b c d x y = little_endian l.
Proof.
  intros pos Hp Hl Hb H. unfold pixel. fold pos. f_equal. pose proof (zlen_nonneg l).
  assert (E : zlen (zfirst b (zskip pos d)) = b) by (rewrite zlen_zfirst, zlen_zskip by lia; lia).
  apply bytes_ext; [lia|]. rewrite E. intros i Hi. rewrite byte_zfirst, byte_zskip by lia. now apply H.
Qed.

Lemma pixel_same b c d d' x y : b = 1 \/ b = 2 -> let pos := vc_offset c + y * vc_stride c + x * b in
  0 <= pos -> pos + b <= zlen d -> zlen d' = zlen d -> (forall j, 0 <= j < b -> byte_at d' (pos + j) = byte_at d (pos + j)) ->
  pixel b c d' x y = pixel b c d x y.
Proof.
  intros Hb pos Hp Hl E H. unfold pixel at 2. fold pos. apply pixel_at; [exact Hp|fold pos; lia| |].
  - rewrite zlen_zfirst, zlen_zskip by lia. lia.
  - intros j Hj. fold pos. rewrite byte_zfirst, byte_zskip by lia. now apply H.
Qed.

(** Where a sample of a component lies. *)
Lemma sample_pos b c lo hi x y : b = 1 \/ b = 2 -> comp_ok b c lo hi -> 0 <= x < vc_width c -> 0 <= y < vc_height c ->
  lo <= vc_offset c + y * vc_stride c + x * b /\ vc_offset c + y * vc_stride c + x * b + b <= hi /\ 0 <= x * b /\ x * b + b <= vc_width c * b.
Proof.
  intros Hb HC Hx Hy. destruct (row_bounds b c lo hi y Hb HC Hy) as (B1 & B2 & B3).
  assert (0 <= x * b /\ x * b + b <= vc_width c * b) by (destruct Hb; subst b; lia). lia.
Qed.

(** All the rows of a component. *)
Lemma component_filled b c lo hi v d : b = 1 \/ b = 2 -> comp_ok b c lo hi -> hi <= zlen d ->
  let d' := put_rows b c (line_bytes b v (vc_width c)) d in
  zlen d' = zlen d /\ (forall i, 0 <= i -> ~ (lo <= i < hi) -> byte_at d' i = byte_at d i) /\
  (forall x y, 0 <= x < vc_width c -> 0 <= y < vc_height c -> pixel b c d' x y = little_endian (le b (v x))).
Proof.
  intros Hb HC Hd d'. pose proof HC as (_ & _ & _ & Hw & Hh & _).
  assert (HL := line_len b v (vc_width c) Hb Hw).
  destruct (rows_fold b c lo hi _ Hb HC HL (zrange (vc_height c)) d Hd) as (R1 & R2 & R3).
  { intros y Hy. now apply in_zrange. }
  split; [exact R1|]. split; [exact R2|]. intros x y Hx Hy.
  destruct (sample_pos b c lo hi x y Hb HC Hx Hy) as (P1 & P2 & P3 & P4). pose proof HC as (L0 & _).
  apply pixel_at; [lia|unfold d', put_rows; lia|apply le_len; exact Hb|].
  intros j Hj. unfold d', put_rows. rewrite <- Z.add_assoc. rewrite R3 by lia.
  destruct (in_dec Z.eq_dec y (zrange (vc_height c))) as [_|N]; [|exfalso; apply N; now apply in_zrange].
  apply byte_line; [exact Hb|exact Hx|exact Hj].
Qed.

(** Bars. *)
Lemma bar_value scale bits n pos c : 0 <= bits <= 16 -> 0 <= pos < 8 -> c = Z.of_nat n -> (n < 3)%nat ->
  exists v, item (bar_values scale (16 - bits)) pos = Ok v /\ channel v c = bar_level scale bits n pos.
Proof.
  intros Hbits Hpos -> Hn. unfold bar_level, bar_values.
  rewrite !Z.shiftr_div_pow2 by lia.
  assert (pos = 0 \/ pos = 1 \/ pos = 2 \/ pos = 3 \/ pos = 4 \/ pos = 5 \/ pos = 6 \/ pos = 7) as C by lia.
  destruct n as [|[|[|n]]]; [| | |lia].
  all: repeat (destruct C as [-> | C]; [eexists; split; [reflexivity|reflexivity]|]); subst pos; eexists; (split; [reflexivity|reflexivity]).
Qed.

Lemma bar_line_ok scale b bits n z width : z = Z.of_nat n -> b = 1 \/ b = 2 -> 0 <= bits <= 16 -> (n < 3)%nat -> 0 <= width -> width mod 8 = 0 ->
  (b = 1 -> forall pos, 0 <= pos < 8 -> 0 <= bar_level scale bits n pos < 256) ->
  bar_line (bar_values scale (16 - bits)) b z width = Ok (line_bytes b (fun x => bar_level scale bits n (x / (width / 8))) width).
Proof.
  intros -> Hb Hbits Hn Hw H8 Hv. unfold bar_line. rewrite <- fill_line; [|exact Hb|exact Hw|].
  - apply for_ext. intros x s Hx. apply in_zrange in Hx. unfold floordiv.
    assert (Hq : 0 < width / 8) by lia. replace (width / 8 =? 0) with false by lia. cbn [rbind].
    assert (Hp : 0 <= x / (width / 8) < 8).
    { split; [apply Z.div_pos; lia|]. apply Z.div_lt_upper_bound; [exact Hq|]. lia. }
    destruct (bar_value scale bits n _ (Z.of_nat n) Hbits Hp eq_refl Hn) as (v & E1 & E2). rewrite E1. cbn [rbind]. now rewrite E2.
  - intros E x Hx. apply Hv; [exact E|]. assert (Hq : 0 < width / 8) by lia.
    split; [apply Z.div_pos; lia|]. apply Z.div_lt_upper_bound; [exact Hq|]. lia.
Qed.

Lemma bar_line_fails scale b bits n z width : z = Z.of_nat n -> b = 1 \/ b = 2 -> 0 <= bits <= 16 -> (n < 3)%nat -> 0 <= width -> width mod 8 <> 0 ->
  (b = 1 -> forall pos, 0 <= pos < 8 -> 0 <= bar_level scale bits n pos < 256) ->
  bar_line (bar_values scale (16 - bits)) b z width = Err (width_error width).
Proof.
  intros -> Hb Hbits Hn Hw H8 Hv. unfold bar_line, width_error. destruct (Z.ltb_spec width 8) as [L|L].
  - assert (Ez : zrange width = [0] ++ map (fun x => 1 + x) (zrange (width - 1))).
    { replace width with (1 + (width - 1)) at 1 by lia. apply zrange_app; lia. }
    rewrite Ez. cbn [app for_each]. unfold floordiv. replace (width / 8 =? 0) with true by lia. reflexivity.
  - set (q := width / 8) in *. assert (Hq : 0 < q) by lia.
    assert (Ez : zrange width = zrange (8 * q) ++ map (fun x => 8 * q + x) (zrange (1 + (width - 8 * q - 1)))).
    { replace width with (8 * q + (1 + (width - 8 * q - 1))) at 1 by lia. apply zrange_app; lia. }
    rewrite Ez, for_app.
    assert (E : for_each (fun line x => rbind (floordiv x q) (fun pos => rbind (item (bar_values scale (16 - bits)) pos)
                 (fun v => put_sample b line x (channel v (Z.of_nat n))))) (zeros (Z.to_nat (width * b))) (zrange (8 * q)) =
               Ok (line_bytes b (fun x => bar_level scale bits n (x / q)) (8 * q) ++ zeros (Z.to_nat ((width - 8 * q) * b)))).
    { rewrite <- fill_prefix; [|exact Hb|lia|].
      - apply for_ext. intros x s Hx. apply in_zrange in Hx. unfold floordiv. replace (q =? 0) with false by lia. cbn [rbind].
        assert (Hp : 0 <= x / q < 8) by (split; [apply Z.div_pos; lia|apply Z.div_lt_upper_bound; lia]).
        destruct (bar_value scale bits n _ (Z.of_nat n) Hbits Hp eq_refl Hn) as (v & E1 & E2). rewrite E1. cbn [rbind]. now rewrite E2.
      - intros E x Hx. apply Hv; [exact E|]. split; [apply Z.div_pos; lia|apply Z.div_lt_upper_bound; lia]. }
    rewrite E. cbn [rbind]. rewrite zrange_app by lia. change (zrange 1) with [0]. cbn [app map for_each].
    unfold floordiv. replace (q =? 0) with false by lia. cbn [rbind]. rewrite Z.add_0_r.
    replace (8 * q / q) with 8 by (symmetry; apply Z.div_mul; lia). reflexivity.
Qed.

Lemma level_byte scale bits n pos : bits = 8 -> (forall v, 0 <= v < 256 -> 0 <= scale v < 256) -> 0 <= pos < 8 ->
  0 <= bar_level scale bits n pos < 256.
Proof.
  intros -> Hs Hp. unfold bar_level. change (2 ^ (16 - 8)) with 256.
  set (v := pick n (nth (Z.to_nat pos) bar_colours (0, 0, 0)) / 256).
  assert (Hv : 0 <= v < 256).
  { assert (F : Forall (fun c => 0 <= pick n c < 65536) bar_colours).
    { unfold bar_colours, pick. destruct n as [|[|n]]; repeat (apply Forall_cons; [lia|]); apply Forall_nil. }
    rewrite Forall_forall in F. specialize (F (nth (Z.to_nat pos) bar_colours (0, 0, 0))).
    assert (0 <= pick n (nth (Z.to_nat pos) bar_colours (0, 0, 0)) < 65536).
    { apply F. apply nth_In. change (length bar_colours) with 8%nat. lia. }
    unfold v. lia. }
  destruct n; [now apply Hs|exact Hv].
Qed.

Lemma new_video_zeros f w h : 0 <= w -> 0 <= h -> new_video f w h = Ok (zeros (Z.to_nat (size_for_format f w h)), components_for_format f w h).
Proof. intros Hw Hh. unfold new_video. pose proof (size_nonneg f w h Hw Hh). replace (size_for_format f w h <? 0) with false by lia. reflexivity. Qed.

Lemma pixel_untouched b c lo hi d d' x y : b = 1 \/ b = 2 -> comp_ok b c lo hi -> hi <= zlen d -> zlen d' = zlen d ->
  0 <= x < vc_width c -> 0 <= y < vc_height c -> (forall i, lo <= i < hi -> byte_at d' i = byte_at d i) ->
  pixel b c d' x y = pixel b c d x y.
Proof.
  intros Hb HC Hd HL Hx Hy H. destruct (sample_pos b c lo hi x y Hb HC Hx Hy) as (P1 & P2 & _). pose proof HC as (L0 & _).
  apply pixel_same; [exact Hb|lia|lia|exact HL|]. intros j Hj. apply H. lia.
Qed.

Lemma bars_ok scale f hs vs b bits w h : In (f, (hs, vs, b, bits)) pattern_table -> 0 <= w -> 0 <= h ->
  (b = 1 -> forall v, 0 <= v < 256 -> 0 <= scale v < 256) -> w mod 8 = 0 -> (w / hs) mod 8 = 0 ->
  exists data, colour_bars scale f w h = Ok data /\ zlen data = size_for_format f w h /\
    forall n c x y pos, nth_error (components_for_format f w h) n = Some c ->
      0 <= x < vc_width c -> 0 <= y < vc_height c -> 0 <= pos < 8 -> pos * vc_width c <= 8 * x < (pos + 1) * vc_width c ->
      pixel b c data x y = bar_level scale bits n pos mod 2 ^ (8 * b).
Proof.
  intros Hin Hw Hh Hsc H8 H8'. destruct (shape_ok f hs vs b bits w h Hin Hw Hh) as (px & c0 & c1 & c2 & S).
  destruct S as [Epx Enum EC Hb Hbits Hsub W0 H0 W1 H1 W2 H2 O0 O1 O2 Mid _].
  assert (Hbi : 0 <= bits <= 16) by lia.
  assert (Hlev : forall n, b = 1 -> forall pos, 0 <= pos < 8 -> 0 <= bar_level scale bits n pos < 256).
  { intros n E pos Hpos. apply level_byte; [lia|now apply Hsc|exact Hpos]. }
  assert (Wn : 0 <= w / hs) by (apply Z.div_pos; lia).
  unfold colour_bars. rewrite Epx, new_video_zeros by assumption. cbn [rbind]. rewrite EC, Enum. cbn [px_bpp px_bits].
  rewrite W0, W1, W2.
  rewrite (bar_line_ok scale b bits 0 0 w) by (try assumption; try reflexivity; try lia; now apply Hlev).
  cbn [rbind].
  rewrite (bar_line_ok scale b bits 1 1 (w / hs)) by (try assumption; try reflexivity; try lia; now apply Hlev).
  rewrite (bar_line_ok scale b bits 2 2 (w / hs)) by (try assumption; try reflexivity; try lia; now apply Hlev).
  cbn [rbind]. eexists. split; [reflexivity|].
  set (v0 := fun x => bar_level scale bits 0 (x / (w / 8))). set (v1 := fun x => bar_level scale bits 1 (x / (w / hs / 8))).
  set (v2 := fun x => bar_level scale bits 2 (x / (w / hs / 8))).
  pose proof (size_nonneg f w h Hw Hh) as HSz. assert (Z0 := zlen_zeros' _ HSz).
  set (d0 := zeros (Z.to_nat (size_for_format f w h))) in *.
  replace (line_bytes b v0 w) with (line_bytes b v0 (vc_width c0)) by (now rewrite W0).
  replace (line_bytes b v1 (w / hs)) with (line_bytes b v1 (vc_width c1)) by (now rewrite W1).
  replace (line_bytes b v2 (w / hs)) with (line_bytes b v2 (vc_width c2)) by (now rewrite W2).
  assert (D0 : vc_offset c1 <= zlen d0) by (clear - Z0 Mid; lia).
  destruct (component_filled b c0 _ _ v0 d0 Hb O0 D0) as (A1 & A2 & A3). set (d1 := put_rows b c0 (line_bytes b v0 (vc_width c0)) d0) in *.
  assert (D1 : vc_offset c2 <= zlen d1) by (clear - A1 Z0 Mid; lia).
  destruct (component_filled b c1 _ _ v1 d1 Hb O1 D1) as (B1 & B2 & B3). set (d2 := put_rows b c1 (line_bytes b v1 (vc_width c1)) d1) in *.
  assert (D2 : size_for_format f w h <= zlen d2) by (clear - B1 A1 Z0; lia).
  destruct (component_filled b c2 _ _ v2 d2 Hb O2 D2) as (C1 & C2 & C3). set (d3 := put_rows b c2 (line_bytes b v2 (vc_width c2)) d2) in *.
  split; [clear - C1 B1 A1 Z0; lia|]. clearbody d0 d1 d2 d3. assert (P1 := proj1 O1).
  assert (Hpix : forall c v n x y pos, (forall x, v x = bar_level scale bits n (x / (vc_width c / 8))) -> vc_width c mod 8 = 0 ->
    0 <= x < vc_width c -> 0 <= pos < 8 -> pos * vc_width c <= 8 * x < (pos + 1) * vc_width c ->
    pixel b c d3 x y = little_endian (le b (v x)) -> pixel b c d3 x y = bar_level scale bits n pos mod 2 ^ (8 * b)).
  { intros c v n x y pos Ev Hm Hx Hpos Hp E. rewrite E, Ev.
    assert (Ep : x / (vc_width c / 8) = pos).
    { assert (Hwc : vc_width c = 8 * (vc_width c / 8)) by (clear - Hm; lia). set (q := vc_width c / 8) in *. clearbody q.
      symmetry. apply (Z.div_unique_pos x q pos (x - q * pos)); [|ring]. rewrite Hwc in Hp. clear - Hp. lia. }
    rewrite Ep. apply le_val; [exact Hb|]. intros E1. now apply Hlev. }
  intros n c x y pos Hn Hx Hy Hpos Hp. destruct n as [|[|[|n]]]; cbn [nth_error] in Hn.
  - injection Hn as <-. apply (Hpix c0 v0 0%nat); try assumption; [intros; unfold v0; now rewrite W0|now rewrite W0|].
    rewrite <- (A3 x y) by assumption.
    rewrite (pixel_untouched b c0 _ _ d2 d3 x y Hb O0); [|clear - D0 Mid A1 B1 Z0; lia|exact C1|assumption|assumption|intros i Hi; apply C2; clear - Hi Mid; lia].
    apply (pixel_untouched b c0 _ _ d1 d2 x y Hb O0); [clear - D0 A1; lia|exact B1|assumption|assumption|intros i Hi; apply B2; clear - Hi Mid; lia].
  - injection Hn as <-. apply (Hpix c1 v1 1%nat); try assumption; [intros; unfold v1; now rewrite W1|now rewrite W1|].
    rewrite <- (B3 x y) by assumption.
    apply (pixel_untouched b c1 _ _ d2 d3 x y Hb O1); [clear - D2 Mid; lia|exact C1|assumption|assumption|intros i Hi; apply C2; clear - Hi Mid P1; lia].
  - injection Hn as <-. apply (Hpix c2 v2 2%nat); try assumption; [intros; unfold v2; now rewrite W2|now rewrite W2|].
    now apply C3.
  - destruct n; discriminate Hn.
Qed.

Lemma bars_fail scale f hs vs b bits w h : In (f, (hs, vs, b, bits)) pattern_table -> 0 <= w -> 0 <= h ->
  (b = 1 -> forall v, 0 <= v < 256 -> 0 <= scale v < 256) -> w mod 8 <> 0 \/ (w / hs) mod 8 <> 0 ->
  colour_bars scale f w h = Err (width_error (if w mod 8 =? 0 then w / hs else w)).
Proof.
  intros Hin Hw Hh Hsc H8. destruct (shape_ok f hs vs b bits w h Hin Hw Hh) as (px & c0 & c1 & c2 & S).
  destruct S as [Epx Enum EC Hb Hbits Hsub W0 H0 W1 H1 W2 H2 O0 O1 O2 Mid _].
  assert (Hbi : 0 <= bits <= 16) by lia.
  assert (Hlev : forall n, b = 1 -> forall pos, 0 <= pos < 8 -> 0 <= bar_level scale bits n pos < 256).
  { intros n E pos Hpos. apply level_byte; [lia|now apply Hsc|exact Hpos]. }
  assert (Wn : 0 <= w / hs) by (apply Z.div_pos; lia).
  unfold colour_bars. rewrite Epx, new_video_zeros by assumption. cbn [rbind]. rewrite EC, Enum. cbn [px_bpp px_bits].
  rewrite W0, W1. destruct (Z.eqb_spec (w mod 8) 0) as [E|E].
  - destruct H8 as [H8|H8]; [contradiction|].
    rewrite (bar_line_ok scale b bits 0 0 w) by (try assumption; try reflexivity; try lia; now apply Hlev). cbn [rbind].
    rewrite (bar_line_fails scale b bits 1 1 (w / hs)) by (try assumption; try reflexivity; try lia; now apply Hlev). reflexivity.
  - rewrite (bar_line_fails scale b bits 0 0 w) by (try assumption; try reflexivity; try lia; now apply Hlev). reflexivity.
Qed.

Lemma bars_unsupported scale f w h : ~ In f (map fst pattern_table) -> colour_bars scale f w h = Err EValue /\ luma_steps f w h = Err EValue.
Proof.
  intros N. assert (E : px_lookup pixel_ranges f = None).
  { assert (G : forall t, ~ In f (map fst t) -> px_lookup t f = None).
    { induction t as [|[g p] t IH]; intros H; [reflexivity|]. cbn [px_lookup map fst In] in *.
      destruct (Z.eqb_spec g f) as [->|_]; [exfalso; apply H; now left|]. apply IH. intros I. apply H. now right. }
    apply G. exact N. }
  unfold colour_bars, luma_steps. rewrite E. now split.
Qed.

Lemma bars_standard : forall n pos, (n < 3)%nat -> (pos < 8)%nat ->
  Z.abs (1000 * pick n (nth pos bar_colours (0, 0, 0)) - pick n (bt601 (nth pos bar_rgb (0, 0, 0)))) <= 375000.
Proof.
  intros n pos Hn Hp.
  assert (H : forallb (fun n => forallb (fun pos =>
    Z.abs (1000 * pick n (nth pos bar_colours (0, 0, 0)) - pick n (bt601 (nth pos bar_rgb (0, 0, 0)))) <=? 375000) (seq 0 8)) (seq 0 3) = true)
    by (vm_compute; reflexivity).
  rewrite forallb_forall in H. specialize (H n). rewrite in_seq, forallb_forall in H. specialize (H ltac:(lia) pos).
  rewrite in_seq in H. specialize (H ltac:(lia)). lia.
Qed.
