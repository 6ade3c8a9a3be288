(** Grains for the examples of the numpy audio arrays. *)
From Verif Require Import Base NpAudio NpAudioSpec.

(** Two channels of three samples of 16 bits, interleaved: 1, 2, 3 and -1, -2, -3. *)
Definition na_pcm : bytes := [1; 0; 255; 255; 2; 0; 254; 255; 3; 0; 253; 255].
(** Two channels of two samples of 24 bits in three bytes. *)
Definition na_packed : bytes := [1; 2; 3; 4; 5; 134; 7; 8; 9; 10; 11; 140].
(** One channel of two samples of 24 bits in four bytes. *)
Definition na_low : bytes := [1; 2; 3; 0; 254; 255; 255; 255].

(** All samples of a grain, by channel. *)
Definition na_all (g : naudio) : list (list (option bytes)) :=
  map (fun ch => map (fun i => na_get g (Z.of_nat ch) (Z.of_nat i)) (seq 0 (Z.to_nat (na_samples g)))) (seq 0 (Z.to_nat (na_channels g))).
Definition na_show (r : res naudio) : option (bytes * list (list (option bytes))) := match r with Ok g => Some (na_data g, na_all g) | Err _ => None end.
