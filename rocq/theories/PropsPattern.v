(** The properties of the pattern generators, C36 to C38. *)
From Verif Require Import Base CogEnums VideoLayout LayoutSpec PatternTime Tone VideoPattern PatternSpec PatternTimeProofs ToneProofs
  VideoPatternFacts VideoPatternMore.

(** C36. A tone is one waveform, cut into grains. *)
Theorem C36_samples : forall t a size d, In (t_format t, (a, size, d)) tone_table -> tone_ok t a d ->
  exists p, period t p /\
  forall k key, let c := count_at k key (t_sample_rate t, 1) in
  (c mod t_samples t <> 0 -> snd (tone_get k t [] key) = Ok None) /\
  (c mod t_samples t = 0 -> exists data,
    snd (tone_get k t [] key) = Ok (Some (mkTg (grid k (t_sample_rate t, 1) c) (tone_rate t) data)) /\
    zlen data = t_channels t * t_samples t * size /\
    zlen data = size_for_audio_format (t_format t) (t_channels t) (t_samples t) /\
    forall ch i, 0 <= ch < t_channels t -> 0 <= i < t_samples t ->
      zlen (sample_bytes size data (position a (t_channels t) (t_samples t) ch i)) = size /\
      little_endian (sample_bytes size data (position a (t_channels t) (t_samples t) ch i)) =
      t_wave t d ((c + i) mod p) mod 2 ^ (8 * size)).
Proof. exact tone_seamless. Qed.
Print Assumptions C36_samples.

(** The grains of a range carry one uninterrupted stretch of the waveform in every channel. *)
Theorem C36_range : forall t a size d, In (t_format t, (a, size, d)) tone_table -> tone_ok t a d ->
  exists p, period t p /\
  forall k ch s i e j rt n, clock_ok k -> slow (t_sample_rate t, 1) -> 0 <= ch < t_channels t ->
  rt = None \/ rt = Some (tone_rate t) ->
  let x := first_count k (tone_rate t) s i in let y := end_count k (tone_rate t) e j in
  x <= y -> (Z.to_nat (y - x) <= n)%nat ->
  exists gs, get_range k (tone_rate t) (fun v => snd (tone_get k t [] v)) (mkTr (Some s) i (Some e) j rt) 1 n = (gs, None) /\
    map tg_origin gs = map (fun c => grid k (t_sample_rate t, 1) (c * t_samples t)) (between x y) /\
    flat_map (fun g => channel_samples t a size ch (tg_data g)) gs =
    map (fun m => t_wave t d (m mod p) mod 2 ^ (8 * size)) (between (x * t_samples t) (y * t_samples t)).
Proof. exact tone_stream. Qed.
Print Assumptions C36_range.

(** The period holds whole turns of the oscillator: cutting it off there changes no phase. *)
Theorem C36_phase : forall t p n, period t p -> 0 < t_sample_rate t ->
  ((n mod p) * t_frequency t) mod t_sample_rate t = (n * t_frequency t) mod t_sample_rate t.
Proof. exact same_phase. Qed.
Print Assumptions C36_phase.

(** What a generator was asked before makes no difference. *)
Theorem C36_cache : forall k t keys, tone_gets k t [] keys = map (fun key => snd (tone_get k t [] key)) keys.
Proof. exact cache_history. Qed.
Print Assumptions C36_cache.

(** Channels in pairs: an odd number of channels raises, unless samples have three bytes. *)
Theorem C36_odd_pairs : forall t d offs, In (t_format t, (Pairs, Z.of_nat (dsize d), d)) tone_table -> d <> D24 ->
  0 < t_samples t -> 0 < t_channels t -> t_channels t mod 2 = 1 -> 0 < t_sample_rate t -> 0 <= t_frequency t ->
  fresh_samples t offs = Err EStruct.
Proof. exact tone_odd_pairs. Qed.
Print Assumptions C36_odd_pairs.

Definition ex_tone (fmt samples channels : Z) : tone := mkTone samples channels fmt 48000 1000 (fun _ n => n * 100 - 2400).

(** Two grains of 30 samples in stereo: the second one starts in the middle of the period of 48. *)
Example C36_example :
  (let g := tone_get example_clock (ex_tone 0x2 30 2) [] (TvCount 1 (1600, 1)) in
   option_map (fun g => (tg_origin g, firstn 8 (tg_data g))) (match snd g with Ok x => x | Err _ => None end)) =
  Some (625000, [88; 2; 88; 2; 188; 2; 188; 2]).
Proof. vm_compute. reflexivity. Qed.

(** Samples for planes of 24 bits are packed in three bytes, though the format has four (tone.py 149). *)
Theorem C36_planes_24_refuted : exists t key data,
  t_format t = 0x4 /\ (forall n, sample_fits D24 (t_wave t D24 n)) /\
  snd (tone_get example_clock t [] key) = Ok (Some (mkTg 0 (tone_rate t) data)) /\
  zlen data < size_for_audio_format (t_format t) (t_channels t) (t_samples t).
Proof.
  exists (mkTone 2 1 0x4 48000 1000 (fun _ n => n mod 48)), (TvTime 0), [0; 0; 0; 1; 0; 0].
  split; [reflexivity|]. split; [|vm_compute; repeat split].
  intros n. cbn [t_wave sample_fits]. pose proof (Z.mod_pos_bound n 48 eq_refl) as [H1 H2].
  split; [|eapply Z.lt_trans; [exact H2|reflexivity]]. eapply Z.le_trans; [|exact H1]. discriminate.
Qed.
Print Assumptions C36_planes_24_refuted.

(** At full volume the peak of the waveform does not fit in a sample (tone.py 93): the grain cannot be made. *)
Theorem C36_full_volume_refuted : exists t key,
  (forall n, - 2 ^ 15 <= t_wave t D16 n <= 2 ^ 15) /\ snd (tone_get example_clock t [] key) = Err EStruct.
Proof.
  exists (mkTone 48 1 0x2 48000 1000 (fun _ n => if n =? 12 then 2 ^ 15 else 0)), (TvTime 0). split; [|vm_compute; reflexivity].
  intros n. cbn [t_wave]. destruct (n =? 12); split; discriminate.
Qed.
Print Assumptions C36_full_volume_refuted.

(** C37. Grains on the grid of the rate. *)
Theorem C37_on_grid : forall A k r (t : A) v, clock_ok k -> slow r ->
  (forall c, as_ns k v = grid k r c -> still_get k r t v = Ok (Some (mkSg t (grid k r c) (grid k r c)))) /\
  ((forall c, as_ns k v <> grid k r c) -> still_get k r t v = Ok None).
Proof. exact @still_at. Qed.
Print Assumptions C37_on_grid.

Theorem C37_contains : forall A k own (t : A) v, clock_ok k -> slow own ->
  (contains (still_get k own t) v = Ok true <-> exists c, as_ns k v = grid k own c).
Proof. exact @contains_at. Qed.
Print Assumptions C37_contains.

Theorem C37_item : forall A k own (t : A) v, clock_ok k -> slow own ->
  (forall c n, as_ns k v = grid k own c ->
    getitem k own (still_get k own t) (KValue v) n = Ok (GOne (mkSg t (grid k own c) (grid k own c)))) /\
  (forall n, (forall c, as_ns k v <> grid k own c) -> getitem k own (still_get k own t) (KValue v) n = Err EKey).
Proof. exact @item_at. Qed.
Print Assumptions C37_item.

(** Different counts are different times, in the same order. *)
Theorem C37_grid_order : forall k r a b, clock_ok k -> slow r -> (grid k r a < grid k r b <-> a < b).
Proof. exact grid_lt. Qed.
Print Assumptions C37_grid_order.

(** [g[s:e]] between two grid points: every grid point of the range once, in order, and nothing else. *)
Theorem C37_cover : forall A k own (t : A) s e a b n,
  clock_ok k -> slow own -> as_ns k s = grid k own a -> as_ns k e = grid k own b -> (Z.to_nat (b - a) <= n)%nat ->
  getitem k own (still_get k own t) (KSlice (Some s) (Some e) SNone) n =
    Ok (GMany (still_grains k own t (between a b), None)) /\
  (forall c, In c (between a b) <-> as_ns k s <= grid k own c < as_ns k e).
Proof. exact @still_cover. Qed.
Print Assumptions C37_cover.

Theorem C37_range : forall A k own (t : A) s i e j rt n,
  clock_ok k -> slow own -> rt = None \/ rt = Some own ->
  (Z.to_nat (end_count k own e j - first_count k own s i) <= n)%nat ->
  get_range k own (still_get k own t) (mkTr (Some s) i (Some e) j rt) 1 n =
  (still_grains k own t (between (first_count k own s i) (end_count k own e j)), None).
Proof. exact @still_range. Qed.
Print Assumptions C37_range.

Theorem C37_skip : forall A k own (t : A) s i e j rt n skip,
  clock_ok k -> slow own -> rt = None \/ rt = Some own -> (0 < skip)%nat ->
  (Z.to_nat (end_count k own e j - first_count k own s i) <= n)%nat ->
  get_range k own (still_get k own t) (mkTr (Some s) i (Some e) j rt) (Z.of_nat skip) n =
  (still_grains k own t (every_nth skip 0 (between (first_count k own s i) (end_count k own e j))), None).
Proof. exact @still_skip. Qed.
Print Assumptions C37_skip.

(** A range without an end goes on: its first n grains. *)
Theorem C37_endless : forall A k own (t : A) s i j n, clock_ok k -> slow own ->
  get_range k own (still_get k own t) (mkTr (Some s) i None j None) 1 n =
  (still_grains k own t (between (first_count k own s i) (first_count k own s i + Z.of_nat n)), None).
Proof. exact @still_endless. Qed.
Print Assumptions C37_endless.

(** Splitting a range in two, whatever the generator does with each time. *)
Theorem C37_split : forall G k own (get : tvalue -> res (option G)) s m e n,
  clock_ok k -> slow own -> as_ns k s <= as_ns k m <= as_ns k e ->
  (Z.to_nat (count_at k e own - count_at k s own) <= n)%nat ->
  getitem k own get (KSlice (Some s) (Some e) SNone) n =
  match getitem k own get (KSlice (Some s) (Some m) SNone) n, getitem k own get (KSlice (Some m) (Some e) SNone) n with
  | Ok (GMany a), Ok (GMany b) => Ok (GMany (cat a b))
  | _, _ => Err EFuel
  end.
Proof. exact @split_times. Qed.
Print Assumptions C37_split.

(** With a step, the pieces join when the first has a whole number of steps. *)
Theorem C37_split_skip : forall G k own (get : tvalue -> res (option G)) s i m e j rt skip n,
  let r := match rt with Some r => r | None => own end in
  clock_ok k -> slow r -> skip <> 0 ->
  first_count k r s i <= count_at k m r <= end_count k r e j ->
  (count_at k m r - first_count k r s i) mod skip = 0 ->
  (Z.to_nat (end_count k r e j - first_count k r s i) <= n)%nat ->
  get_range k own get (mkTr (Some s) i (Some e) j rt) skip n =
  cat (get_range k own get (mkTr (Some s) i (Some m) false rt) skip n)
      (get_range k own get (mkTr (Some m) true (Some e) j rt) skip n).
Proof. exact @split_range. Qed.
Print Assumptions C37_split_skip.

Theorem C37_no_start : forall G k own (get : tvalue -> res (option G)) n b s i e j r,
  (match s with STime ns => ns <> 0 | _ => True end) ->
  getitem k own get (KSlice None b s) n = Err EValue /\ getitem k own get (KRange (mkTr None i e j r)) n = Err EValue.
Proof. exact @no_start. Qed.
Print Assumptions C37_no_start.

(** There is such a clock. *)
Theorem C37_clock : clock_ok example_clock.
Proof. exact example_clock_ok. Qed.
Print Assumptions C37_clock.

(** Half a second at 30000/1001 frames a second: fifteen grains, the last at 467133333 ns. *)
Example C37_example :
  match getitem example_clock (30000, 1001) (still_get example_clock (30000, 1001) tt) (KSlice (Some (TvTime 0)) (Some (TvTime 500000000)) SNone) 100 with
  | Ok (GMany (l, None)) => (length l, map sg_origin (firstn 2 l), sg_origin (last l (mkSg tt 0 0)))
  | _ => (0%nat, [], 0)
  end = (15%nat, [0; 33366666], 467133333).
Proof. vm_compute. reflexivity. Qed.

(** C38. Colour bars. *)
Theorem C38_bars : forall scale f hs vs b bits w h, In (f, (hs, vs, b, bits)) pattern_table -> 0 <= w -> 0 <= h ->
  (b = 1 -> forall v, 0 <= v < 256 -> 0 <= scale v < 256) -> w mod 8 = 0 -> (w / hs) mod 8 = 0 ->
  exists data, colour_bars scale f w h = Ok data /\ zlen data = size_for_format f w h /\
    forall n c x y pos, nth_error (components_for_format f w h) n = Some c ->
      0 <= x < vc_width c -> 0 <= y < vc_height c -> 0 <= pos < 8 -> pos * vc_width c <= 8 * x < (pos + 1) * vc_width c ->
      pixel b c data x y = bar_level scale bits n pos mod 2 ^ (8 * b).
Proof. exact bars_ok. Qed.
Print Assumptions C38_bars.

Theorem C38_other_widths : forall scale f hs vs b bits w h, In (f, (hs, vs, b, bits)) pattern_table -> 0 <= w -> 0 <= h ->
  (b = 1 -> forall v, 0 <= v < 256 -> 0 <= scale v < 256) -> w mod 8 <> 0 \/ (w / hs) mod 8 <> 0 ->
  colour_bars scale f w h = Err (width_error (if w mod 8 =? 0 then w / hs else w)).
Proof. exact bars_fail. Qed.
Print Assumptions C38_other_widths.

Theorem C38_other_formats : forall scale f w h, ~ In f (map fst pattern_table) ->
  colour_bars scale f w h = Err EValue /\ luma_steps f w h = Err EValue.
Proof. exact bars_unsupported. Qed.
Print Assumptions C38_other_formats.

(** The colours are those of the primary colours and their mixtures, to within 0.6 % of the range. *)
Theorem C38_colours : forall n pos, (n < 3)%nat -> (pos < 8)%nat ->
  Z.abs (1000 * pick n (nth pos bar_colours (0, 0, 0)) - pick n (bt601 (nth pos bar_rgb (0, 0, 0)))) <= 375000.
Proof. exact bars_standard. Qed.
Print Assumptions C38_colours.

(** Luma steps and neutral chroma. *)
Theorem C38_steps : forall f hs vs b bits w h, In (f, (hs, vs, b, bits)) pattern_table -> 0 <= h -> w = 0 \/ 8 <= w ->
  exists data c0 c1 c2, luma_steps f w h = Ok data /\ zlen data = size_for_format f w h /\
    components_for_format f w h = [c0; c1; c2] /\
    (forall x y, 0 <= x < w -> 0 <= y < h -> pixel b c0 data x y = step_level bits w x mod 2 ^ (8 * b)) /\
    (forall c x y, In c [c1; c2] -> 0 <= x < vc_width c -> 0 <= y < vc_height c -> pixel b c data x y = neutral bits).
Proof. exact steps_ok. Qed.
Print Assumptions C38_steps.

Theorem C38_step_eighths : forall bits w x pos, 8 <= bits <= 16 -> 0 < w -> w mod 8 = 0 -> 0 <= pos < 8 -> pos * w <= 8 * x < (pos + 1) * w ->
  step_level bits w x = black bits + pos * luma_span bits / 8 /\ black bits <= step_level bits w x < 235 * 2 ^ (bits - 8).
Proof. exact step_eighths. Qed.
Print Assumptions C38_step_eighths.

Theorem C38_steps_narrow : forall f hs vs b bits w h, In (f, (hs, vs, b, bits)) pattern_table -> 0 <= h -> 0 < w < 8 ->
  luma_steps f w h = Err EZeroDiv.
Proof. exact steps_fail. Qed.
Print Assumptions C38_steps_narrow.

(** With a width that is no multiple of eight the steps go on past white and wrap round to dark. *)
Theorem C38_steps_wrap_refuted : exists data, luma_steps U8_444 12 1 = Ok data /\
  exists x x', x < x' < 12 /\ pixel 1 (mkVc 12 0 12 1 12) data x' 0 < pixel 1 (mkVc 12 0 12 1 12) data x 0.
Proof.
  destruct (luma_steps U8_444 12 1) as [d|e] eqn:E; [|vm_compute in E; discriminate]. exists d. split; [reflexivity|].
  exists 8, 9. split; [split; reflexivity|]. vm_compute in E. injection E as <-. vm_compute. reflexivity.
Qed.
Print Assumptions C38_steps_wrap_refuted.

(** The moving bar covers the lines it should and leaves the others. *)
Theorem C38_moving_bar : forall f hs vs b bits w h bar fnum data, In (f, (hs, vs, b, bits)) pattern_table -> 0 <= w -> 0 < h / vs -> 0 <= h ->
  zlen data = size_for_format f w h ->
  exists data' c0 c1 c2, overlay f w h bar fnum data = Ok data' /\ zlen data' = zlen data /\ components_for_format f w h = [c0; c1; c2] /\
    (forall x y, 0 <= x < w -> 0 <= y < h ->
      (covered fnum bar h y -> pixel b c0 data' x y = black bits) /\
      (~ covered fnum bar h y -> pixel b c0 data' x y = pixel b c0 data x y)) /\
    (forall c x y, In c [c1; c2] -> 0 <= x < w / hs -> 0 <= y < h / vs ->
      (covered (fnum / vs) (bar / vs) (h / vs) y -> pixel b c data' x y = neutral bits) /\
      (~ covered (fnum / vs) (bar / vs) (h / vs) y -> pixel b c data' x y = pixel b c data x y)).
Proof. exact overlay_ok. Qed.
Print Assumptions C38_moving_bar.

Theorem C38_moving_bar_flat : forall f hs vs b bits w h bar fnum data, In (f, (hs, vs, b, bits)) pattern_table -> 0 <= w -> 0 <= h -> h / vs = 0 ->
  0 < bar / vs -> overlay f w h bar fnum data = Err EZeroDiv.
Proof. exact overlay_fails. Qed.
Print Assumptions C38_moving_bar_flat.

Definition ex_scale (v : Z) : Z := v * 3 / 4.
Example C38_example : colour_bars ex_scale U8_422 16 1 =
  Ok [191; 191; 168; 168; 133; 133; 111; 111; 78; 78; 57; 57; 21; 21; 0; 0; 128; 0; 171; 43; 212; 84; 255; 128; 128; 148; 0; 21; 234; 255; 107; 128] /\
  colour_bars ex_scale U8_422 24 1 = Err EIndex /\ colour_bars ex_scale U8_422 8 1 = Err EZeroDiv /\
  luma_steps U8_444 8 1 = Ok [16; 43; 70; 98; 125; 152; 180; 207; 128; 128; 128; 128; 128; 128; 128; 128; 128; 128; 128; 128; 128; 128; 128; 128] /\
  overlay U8_444 2 3 2 5 (zeros 18) = Ok [16; 16; 0; 0; 16; 16; 128; 128; 0; 0; 128; 128; 128; 128; 0; 0; 128; 128].
Proof. vm_compute. repeat split. Qed.
