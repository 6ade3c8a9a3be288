(** What the pattern generators should produce. *)
From Verif Require Import Base CogEnums VideoLayout LayoutSpec PatternTime Tone.

Definition second : Z := 1000000000.

(** A clock that rounds counts to within a nanosecond, and times to within half a period of the rate. *)
Definition clock_ok (k : clock) : Prop :=
  forall num den, 0 < num -> 0 < den ->
    (forall c, Z.abs (from_count k c num den * num - c * second * den) <= num) /\
    (forall ns, 2 * Z.abs (to_count k ns num den * (second * den) - ns * num) <= second * den).

(** Rates below five hundred million a second. *)
Definition slow (r : rate) : Prop := 0 < fst r /\ 0 < snd r /\ 2 * fst r < second * snd r.

(** The time of count c at a rate. *)
Definition grid (k : clock) (r : rate) (c : Z) : Z := from_count k c (fst r) (snd r).

(** The counts from a up to but not including b, in order. *)
Definition between (a b : Z) : list Z := map (fun m => a + Z.of_nat m) (seq 0 (Z.to_nat (b - a))).
(** Every [s]-th of them, starting with the first. *)
Fixpoint every_nth (s : nat) (skip : nat) (l : list Z) : list Z :=
  match l with
  | [] => []
  | x :: rest => match skip with O => x :: every_nth s (s - 1) rest | S n => every_nth s n rest end
  end.

(** A clock: counts rounded down to a nanosecond, times rounded to the nearest count. *)
Definition example_clock : clock :=
  mkClock (fun c n d => (c * second * d) / n) (fun ns n d => (2 * ns * n + second * d) / (2 * (second * d))).

(** Position of sample i of channel ch in the samples of a grain. *)
Definition position (a : arrangement) (channels samples ch i : Z) : Z :=
  match a with
  | Planes => ch * samples + i
  | Pairs => 2 * (ch / 2 * samples + i) + ch mod 2
  | Interleaved => i * channels + ch
  end.

(** The [size] bytes at a position, and the number they stand for in little-endian order. *)
Definition sample_bytes (size : Z) (data : bytes) (pos : Z) : bytes := zfirst size (zskip (pos * size) data).
Fixpoint little_endian (l : bytes) : Z := match l with [] => 0 | b :: rest => b + 256 * little_endian rest end.

(** The formats a tone can have: arrangement, bytes for a sample, how the waveform is formatted. *)
Definition tone_table : list (Z * (arrangement * Z * depth)) :=
  [(0x0, (Planes, 2, D16)); (0x1, (Pairs, 2, D16)); (0x2, (Interleaved, 2, D16));
   (0x5, (Pairs, 3, D24)); (0x6, (Interleaved, 3, D24));
   (0x8, (Planes, 4, D32)); (0x9, (Pairs, 4, D32)); (0xa, (Interleaved, 4, D32));
   (0x18, (Planes, 4, DFloat)); (0x19, (Pairs, 4, DFloat)); (0x1a, (Interleaved, 4, DFloat));
   (0x2c, (Planes, 8, DDouble)); (0x2d, (Pairs, 8, DDouble)); (0x2e, (Interleaved, 8, DDouble))].

(** Values that fit: signed integers of the sample size, or the bits of a float. *)
Definition sample_fits (d : depth) (v : Z) : Prop :=
  match d with
  | D16 => - 2 ^ 15 <= v < 2 ^ 15
  | D24 => - 2 ^ 23 <= v < 2 ^ 23
  | D32 => - 2 ^ 31 <= v < 2 ^ 31
  | DFloat => 0 <= v < 2 ^ 32
  | DDouble => 0 <= v < 2 ^ 64
  end.

(** A tone whose grains have samples of every channel. *)
Definition tone_ok (t : tone) (a : arrangement) (d : depth) : Prop :=
  0 < t_samples t /\ 0 < t_channels t /\ 0 < t_sample_rate t /\ 0 <= t_frequency t /\
  (a = Pairs -> t_channels t mod 2 = 0) /\ (forall n, sample_fits d (t_wave t d n)).

(** The numbers of the samples of one channel of a grain, in order. *)
Definition channel_samples (t : tone) (a : arrangement) (size : Z) (ch : Z) (data : bytes) : list Z :=
  map (fun i => little_endian (sample_bytes size data (position a (t_channels t) (t_samples t) ch i))) (between 0 (t_samples t)).

(** One period of a tone: a whole number of turns of the oscillator. *)
Definition period (t : tone) (p : Z) : Prop := 0 < p /\ (p * t_frequency t) mod t_sample_rate t = 0.

(** The formats of the video patterns: sub-sampling of chroma, bytes for a sample, bits. *)
Definition pattern_table : list (Z * (Z * Z * Z * Z)) :=
  [(U8_444, (1, 1, 1, 8)); (U8_422, (2, 1, 1, 8)); (U8_420, (2, 2, 1, 8));
   (S16_444_10BIT, (1, 1, 2, 10)); (S16_422_10BIT, (2, 1, 2, 10)); (S16_420_10BIT, (2, 2, 2, 10));
   (S16_444_12BIT, (1, 1, 2, 12)); (S16_422_12BIT, (2, 1, 2, 12)); (S16_420_12BIT, (2, 2, 2, 12));
   (S16_444, (1, 1, 2, 16)); (S16_422, (2, 1, 2, 16)); (S16_420, (2, 2, 2, 16))].

(** Sample (x, y) of a component of a picture. *)
Definition pixel (b : Z) (c : vcomp) (data : bytes) (x y : Z) : Z :=
  little_endian (zfirst b (zskip (vc_offset c + y * vc_stride c + x * b) data)).

(** The eight bars: white, yellow, cyan, green, magenta, red, blue, black, as sixteen-bit Y, Cb, Cr. *)
Definition bar_colours : list (Z * Z * Z) :=
  [(65535, 32768, 32768); (57855, 0, 37888); (45568, 44031, 0); (38399, 11263, 5631);
   (27135, 54272, 59904); (19456, 21504, 65535); (7679, 65535, 27647); (0, 32768, 32768)].
Definition bar_rgb : list (Z * Z * Z) :=
  [(1, 1, 1); (1, 1, 0); (0, 1, 1); (0, 1, 0); (1, 0, 1); (1, 0, 0); (0, 0, 1); (0, 0, 0)].
(** The three components of a colour (red, green, blue each 0 or 1) by the weights of BT.601, full range, in thousandths
    of a sixteen-bit step. *)
Definition bt601 (c : Z * Z * Z) : Z * Z * Z :=
  let '(r, g, b) := c in
  let y := 299 * r + 587 * g + 114 * b in
  (65535 * y, 32768000 + 65535 * 564 * (1000 * b - y) / 1000, 32768000 + 65535 * 713 * (1000 * r - y) / 1000).

Definition pick (n : nat) (c : Z * Z * Z) : Z := let '(y, u, v) := c in match n with O => y | S O => u | _ => v end.

(** The value of bar [pos] in component [n]: luma scaled, and the bits the format keeps. *)
Definition bar_level (scale : Z -> Z) (bits : Z) (n : nat) (pos : Z) : Z :=
  let v := pick n (nth (Z.to_nat pos) bar_colours (0, 0, 0)) / 2 ^ (16 - bits) in
  match n with O => scale v | _ => v end.

(** Black and the span of luma, and neutral chroma, for a number of bits. *)
Definition black (bits : Z) : Z := 16 * 2 ^ (bits - 8).
Definition luma_span (bits : Z) : Z := 219 * 2 ^ (bits - 8).
Definition neutral (bits : Z) : Z := 128 * 2 ^ (bits - 8).

(** Row y of a component [height] rows high is covered by a bar of [rows] rows starting at [first], going round. *)
Definition covered (first rows height y : Z) : Prop := exists t, 0 <= t < rows /\ y = (first + t) mod height.

(** The luma of step x of a picture: an eighth of the width each, going on past eight when the width is not a multiple. *)
Definition step_level (bits width x : Z) : Z := black bits + x / (width / 8) * luma_span bits / 8.

(** What a width that is no multiple of eight raises. *)
Definition width_error (width : Z) : err := if width <? 8 then EZeroDiv else EIndex.

(** One generator after another. *)
Definition cat {G} (a b : yielded G) : yielded G :=
  match snd a with Some e => a | None => (fst a ++ fst b, snd b) end.

(** The grains of a still picture at a list of counts. *)
Definition still_grains {A} k r (t : A) (l : list Z) : list (still_grain A) :=
  map (fun c => mkSg t (grid k r c) (grid k r c)) l.
