(** What the arrays of numpy audio grains should be. [position] and [sample_bytes] are those of PatternSpec.v. *)
From Verif Require Import Base LayoutSpec Tone PatternSpec NpAudio.

(** The formats: arrangement and bytes of a sample. In these an array item is a sample. *)
Definition plain_table : list (Z * (arrangement * Z)) :=
  [(0x0, (Planes, 2)); (0x1, (Pairs, 2)); (0x2, (Interleaved, 2)); (0x8, (Planes, 4)); (0x9, (Pairs, 4)); (0xa, (Interleaved, 4));
   (0x18, (Planes, 4)); (0x19, (Pairs, 4)); (0x1a, (Interleaved, 4)); (0x2c, (Planes, 8)); (0x2d, (Pairs, 8)); (0x2e, (Interleaved, 8))].
(** Samples of 24 bits in three bytes. *)
Definition packed_table : list (Z * (arrangement * Z)) := [(0x5, (Pairs, 3)); (0x6, (Interleaved, 3))].
(** Samples of 24 bits in the lower part of four bytes. *)
Definition low_table : list (Z * (arrangement * Z)) := [(0x4, (Planes, 4))].

(** Room for how many samples, when pairs are complete. *)
Definition room (a : arrangement) (channels samples : Z) : Z :=
  match a with Pairs => 2 * ((channels + 1) / 2) * samples | _ => channels * samples end.
(** The number a sample stands for. *)
Definition signed (size : Z) (b : bytes) : Z := let z := little_endian b in if z <? 2 ^ (8 * size - 1) then z else z - 2 ^ (8 * size).

(** Samples by channel and number; assignments to them, the last one first. *)
Definition assigned (ws : list (Z * Z * bytes)) (ch i : Z) : option bytes :=
  match find (fun w => (fst (fst w) =? ch) && (snd (fst w) =? i)) ws with Some w => Some (snd w) | None => None end.

(** Samples a grain has, and grains whose arrays can be written. *)
Definition in_grain (g : naudio) (ch i : Z) : bool := (0 <=? ch) && (ch <? na_channels g) && (0 <=? i) && (i <? na_samples g).
Definition can_write (g : naudio) : Prop := na_rw g = true \/ na_copy g <> None.

(** The items of the arrays of a tone: samples of 24 bits become the upper part of 32 bits. *)
Definition stretched (d : depth) : Z := match d with D24 => 256 | _ => 1 end.
Definition item_bytes (size : Z) (d : depth) : Z := match d with D24 => 4 | _ => size end.
