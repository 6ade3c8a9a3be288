(** The colour space conversions as numbers (rec. 709). *)
From Verif Require Import Base CogEnums VideoLayout NpView NpSpec NpConvert.

(** The products of convert.py 167-173 and 183-188 in millionths: Y U V of R G B, then R G B of Y U V. *)
Definition product (bits k a b c : Z) : Z :=
  let middle := 2 ^ (bits - 1) in
  if k =? 0 then 212600 * a + 715200 * b + 72200 * c
  else if k =? 1 then - 114572 * a - 385428 * b + 500000 * c + 1000000 * middle
  else if k =? 2 then 500000 * a - 454153 * b - 45847 * c + 1000000 * middle
  else if k =? 3 then 1000000 * a + 1574800 * (c - middle)
  else if k =? 4 then 1000000 * a - 187324 * (b - middle) - 468124 * (c - middle)
  else 1000000 * a + 1855600 * (b - middle).
(** [t] is the whole part of a number that is off by a thousandth at most. *)
Definition whole_part (millionths t : Z) : Prop :=
  exists p q, 0 < q /\ Z.abs (1000000 * p - millionths * q) <= 1000 * q /\ t = Z.quot p q.
(** Products of samples as computed with that accuracy; those of double precision numbers are much better. *)
Definition accurate (bits : Z) (o : oracle) : Prop :=
  forall k a b c, 0 <= k < 6 -> 0 <= a < 2 ^ bits -> 0 <= b < 2 ^ bits -> 0 <= c < 2 ^ bits -> whole_part (product bits k a b c) (o_matrix o k a b c).
(** One that is exact. *)
Definition exact_oracle (bits : Z) : oracle := mkOracle (fun _ _ _ _ => 0) (fun k a b c => Z.quot (product bits k a b c) 1000000).
(** The number of the product for a component. *)
Definition product_of (n : cname) : Z := match n with CY => 0 | CU => 1 | CV => 2 | CR => 3 | CG => 4 | CB => 5 end.
(** The whole part of a product, or one less if it is at most a thousandth above a whole number, or one more if at most that below. *)
Definition truncated (millionths s : Z) : Prop := millionths - 1001000 < 1000000 * s <= millionths + 1000.
(** The depths of the formats, but for 32 bits, where double precision numbers are not that accurate. *)
Definition depths : list Z := [8; 10; 12; 16].
(** How much less a component may become there and back. *)
Definition loss (n : cname) : Z := match n with CG => 2 | _ => 3 end.
