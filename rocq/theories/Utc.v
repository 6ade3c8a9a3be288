(** Creation times of GSF files: _ensure_utc_datetime (/repo/mediagrains/gsf.py 1564-1583), called by GSFEncoder.__init__ (1938-1941)
    and again when a dump is opened (1601), and the writing of the time (1679-1685). The arithmetic of datetime is that of Lib/datetime.py
    of the standard library (not in /repo). [None] is OverflowError. *)
From Verif Require Import Base GsfPrim.

(** A datetime.datetime; the UTC offset in microseconds, [None] if there is no tzinfo or it gives none. *)
Record moment := mkMoment { mo_at : datetime; mo_micro : Z; mo_offset : option Z }.

(** Lib/datetime.py, _days_before_year, _days_before_month and _ymd2ord. *)
Definition days_before_year (y : Z) : Z := (y - 1) * 365 + (y - 1) / 4 - (y - 1) / 100 + (y - 1) / 400.
Definition month_starts : list Z := [-1; 0; 31; 59; 90; 120; 151; 181; 212; 243; 273; 304; 334].
Definition days_before_month (y m : Z) : Z := nth (Z.to_nat m) month_starts 0 + (if (2 <? m) && leap y then 1 else 0).
Definition ymd2ord (y m d : Z) : Z := days_before_year y + days_before_month y m + d.

(** The month and day from the number of days before in the year, the end of _ord2ymd. *)
Definition month_lengths : list Z := [-1; 31; 28; 31; 30; 31; 30; 31; 31; 30; 31; 30; 31].
Definition in_year (leapyear : bool) (n : Z) : Z * Z :=
  let month := (n + 50) / 32 in
  let preceding := nth (Z.to_nat month) month_starts 0 + (if (2 <? month) && leapyear then 1 else 0) in
  if n <? preceding then
    let month := month - 1 in
    let preceding := preceding - (nth (Z.to_nat month) month_lengths 0 + (if (month =? 2) && leapyear then 1 else 0)) in
    (month, n - preceding + 1)
  else (month, n - preceding + 1).
(** _ord2ymd. *)
Definition ord2ymd (n : Z) : Z * Z * Z :=
  let n := n - 1 in
  let n400 := n / 146097 in
  let n := n mod 146097 in
  let n100 := n / 36524 in
  let n := n mod 36524 in
  let n4 := n / 1461 in
  let n := n mod 1461 in
  let n1 := n / 365 in
  let n := n mod 365 in
  let year := n400 * 400 + 1 + n100 * 100 + n4 * 4 + n1 in
  if (n1 =? 4) || (n100 =? 4) then (year - 1, 12, 31)
  else let (m, d) := in_year ((n1 =? 3) && (negb (n4 =? 24) || (n100 =? 3))) n in (year, m, d).

(** datetime.__sub__ with a timedelta, by way of datetime.__add__: the days, and the microseconds of a day, carried. *)
Definition MAXORDINAL : Z := 3652059.
Definition DAY : Z := 86400000000.
Definition subtract (d : datetime) (micro offset : Z) : option (datetime * Z) :=
  let total := ((dt_hour d * 60 + dt_min d) * 60 + dt_sec d) * 1000000 + micro - offset in
  let days := ymd2ord (dt_year d) (dt_month d) (dt_day d) + total / DAY in
  let within := total mod DAY in
  let seconds := within / 1000000 in
  if (0 <? days) && (days <=? MAXORDINAL) then
    let '(y, m, dd) := ord2ymd days in
    Some (mkDT y m dd (seconds / 3600) (seconds mod 3600 / 60) (seconds mod 3600 mod 60), within mod 1000000)
  else None.

(** _ensure_utc_datetime, gsf.py 1564-1583. *)
Definition ensure_utc (m : moment) : option moment :=
  match mo_offset m with
  | None => Some (mkMoment (mo_at m) (mo_micro m) (Some 0))
  | Some o => option_map (fun r => mkMoment (fst r) (snd r) (Some 0)) (subtract (mo_at m) (mo_micro m) o)
  end.

(** The time that an encoder made with created=[m] has when it is opened: gsf.py 1941, then 1601. Of it the fields down to the second
    are written (1679-1685). *)
Definition created_time (m : moment) : option datetime :=
  match ensure_utc m with
  | Some u => option_map mo_at (ensure_utc u)
  | None => None
  end.
