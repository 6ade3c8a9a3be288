(** The calendar, day by day, and the instant that a date and time stand for. *)
From Verif Require Import Base GsfPrim GsfSpec Utc.

(** The day after. *)
Inductive next_day : Z * Z * Z -> Z * Z * Z -> Prop :=
| nd_day y m d n : month_days y m n -> 1 <= d < n -> next_day (y, m, d) (y, m, d + 1)
| nd_month y m n : month_days y m n -> m < 12 -> next_day (y, m, n) (y, m + 1, 1)
| nd_year y : next_day (y, 12, 31) (y + 1, 1, 1).
(** Days are counted from 1 January of the year 1. *)
Inductive day_number : Z * Z * Z -> Z -> Prop :=
| dn_first : day_number (1, 1, 1) 1
| dn_next a b n : day_number a n -> next_day a b -> day_number b (n + 1).

(** A datetime that can be made. *)
Definition moment_ok (m : moment) : Prop := date_exists (mo_at m) /\ 0 <= mo_micro m < 1000000.
(** The instant, in microseconds of UTC; a time without offset is taken as UTC. *)
Definition instant (m : moment) (t : Z) : Prop := exists n,
  day_number (dt_year (mo_at m), dt_month (mo_at m), dt_day (mo_at m)) n /\
  t = (((n * 24 + dt_hour (mo_at m)) * 60 + dt_min (mo_at m)) * 60 + dt_sec (mo_at m)) * 1000000 + mo_micro m -
      match mo_offset m with Some o => o | None => 0 end.
(** A time of UTC to the second. *)
Definition utc (d : datetime) : moment := mkMoment d 0 (Some 0).
