(** Pattern generators indexed by time: /repo/mediagrains/patterngenerators/abc.py and video/still.py.

    TimeValue and TimeValueRange are classes of the mediatimestamp library, which is not part of /repo. A time value is a
    number of nanoseconds, or a count at a rate; a conversion between counts and nanoseconds is a parameter ([clock]),
    about which the theorems only assume how far it may round. A count without a rate is not modelled. *)
From Verif Require Import Base NpView.

(** TimeOffset.from_count and TimeOffset.to_count (mediatimestamp): (count, numerator, denominator) to nanoseconds and
    (nanoseconds, numerator, denominator) to a count. *)
Record clock := mkClock { from_count : Z -> Z -> Z -> Z; to_count : Z -> Z -> Z -> Z }.

(** A rate is a fraction in lowest terms: fractions.Fraction(n, d), n and d positive. *)
Definition rate := (Z * Z)%type.
Definition fraction (n d : Z) : rate := (n / Z.gcd n d, d / Z.gcd n d).
Definition rate_eqb (a b : rate) : bool := (fst a =? fst b) && (snd a =? snd b).

(** TimeValue: [as_ns] is as_timeoffset / as_timestamp, [count_at k v r] is TimeValue(v, rate=r).as_count(). *)
Inductive tvalue := TvTime (ns : Z) | TvCount (c : Z) (r : rate).
Definition as_ns (k : clock) (v : tvalue) : Z :=
  match v with TvTime ns => ns | TvCount c r => from_count k c (fst r) (snd r) end.
Definition count_at (k : clock) (v : tvalue) (r : rate) : Z :=
  match v with
  | TvTime ns => to_count k ns (fst r) (snd r)
  | TvCount c r' => if rate_eqb r' r then c else to_count k (from_count k c (fst r') (snd r')) (fst r) (snd r)
  end.
Definition at_rate (k : clock) (v : tvalue) (r : rate) : tvalue := TvCount (count_at k v r) r.
(** TimeValue.__eq__: counts when the rates agree, times otherwise. *)
Definition tv_eqb (k : clock) (a b : tvalue) : bool :=
  match a, b with
  | TvCount c r, TvCount c' r' => if rate_eqb r r' then c =? c' else as_ns k a =? as_ns k b
  | _, _ => as_ns k a =? as_ns k b
  end.

(** TimeValueRange: optional start and end with inclusion flags, and an optional rate. *)
Record trange := mkTr { tr_start : option tvalue; tr_in_start : bool; tr_end : option tvalue; tr_in_end : bool; tr_rate : option rate }.

(** Iterating a range at a rate, TimeValueRange.__iter__: the start and the end become counts at the rate; the first
    [n] of the counts between them. A range without an end goes on for ever. *)
Definition first_count (k : clock) (r : rate) (start : tvalue) (incl : bool) : Z :=
  count_at k start r + (if incl then 0 else 1).
Definition end_count (k : clock) (r : rate) (e : tvalue) (incl : bool) : Z :=
  count_at k e r + (if incl then 1 else 0).
Definition range_size (k : clock) (r : rate) (start : tvalue) (i : bool) (e : option tvalue) (j : bool) (n : nat) : nat :=
  match e with
  | None => n
  | Some e => Nat.min n (Z.to_nat (end_count k r e j - first_count k r start i))
  end.
Definition range_values (k : clock) (r : rate) (start : tvalue) (i : bool) (e : option tvalue) (j : bool) (n : nat) : list tvalue :=
  map (fun m => TvCount (first_count k r start i + Z.of_nat m) r) (seq 0 (range_size k r start i e j n)).

(** What running a generator yields: grains in order, and the exception that ends it, if any. *)
Definition yielded G := (list G * option err)%type.

(** The generator expressions of get_range, abc.py 107-114: [get] on each value, None dropped. [enum] numbers the values. *)
Fixpoint run_gen {G} (get : tvalue -> res (option G)) (want : Z -> res bool) (i : Z) (l : list tvalue) : yielded G :=
  match l with
  | [] => ([], None)
  | v :: rest =>
      match want i with
      | Err e => ([], Some e)
      | Ok false => run_gen get want (i + 1) rest
      | Ok true =>
          match get v with
          | Err e => ([], Some e)
          | Ok None => run_gen get want (i + 1) rest
          | Ok (Some g) => let (gs, e) := run_gen get want (i + 1) rest in (g :: gs, e)
          end
      end
  end.

(** PatternGenerator.get_range, abc.py 107-114, and FixedRatePatternGenerator.get_range, 132-135: a range without a rate
    is iterated at the rate of the generator. The first [n] values of the range. *)
Definition get_range {G} (k : clock) (own : rate) (get : tvalue -> res (option G)) (rng : trange) (skip : Z) (n : nat) : yielded G :=
  let r := match tr_rate rng with Some r => r | None => own end in
  match tr_start rng with
  | None => ([], Some EValue)
  | Some s =>
      run_gen get (if skip =? 1 then fun _ => Ok true else fun i => if skip =? 0 then Err EZeroDiv else Ok (i mod skip =? 0)) 0
              (range_values k r s (tr_in_start rng) (tr_end rng) (tr_in_end rng) n)
  end.

(** The keys of __getitem__, abc.py 65-94: a slice with an integer step, a time step in nanoseconds or no step; a range;
    a time value; anything else. *)
Inductive step := SNone | SInt (n : Z) | STime (ns : Z).
Inductive gkey := KSlice (start stop : option tvalue) (s : step) | KRange (r : trange) | KValue (v : tvalue) | KOther.

(** [Fraction(TimeOffset.MAX_NANOSEC, ns)], abc.py 78. *)
Definition step_rate (ns : Z) : res rate := if ns =? 0 then Err EZeroDiv else Ok (fraction 1000000000 ns).

(** __getitem__, abc.py 60-105. *)
Inductive gresult G := GOne (g : G) | GMany (l : yielded G).
Arguments GOne {G}.  Arguments GMany {G}.
Definition getitem {G} (k : clock) (own : rate) (get : tvalue -> res (option G)) (key : gkey) (n : nat) : res (gresult G) :=
  let ranged rng skip :=
    match tr_start rng with
    | None => Err EValue
    | Some _ => Ok (GMany (get_range k own get rng skip n))
    end in
  match key with
  | KSlice a b SNone => ranged (mkTr a true b false None) 1
  | KSlice a b (SInt s) => ranged (mkTr a true b false None) s
  | KSlice a b (STime ns) => rbind (step_rate ns) (fun r => ranged (mkTr a true b false (Some r)) 1)
  | KRange rng => ranged rng 1
  | KValue v => rbind (get v) (fun o => match o with Some g => Ok (GOne g) | None => Err EKey end)
  | KOther => Err EValue
  end.

(** A grain of a still pattern: the picture and the origin timestamp, which is also the sync timestamp. *)
Record still_grain A := mkSg { sg_picture : A; sg_origin : Z; sg_sync : Z }.
Arguments mkSg {A}.  Arguments sg_picture {A}.  Arguments sg_origin {A}.  Arguments sg_sync {A}.

(** StillPatternGenerator.get, still.py 40-49: a copy of the template at the time of the key. *)
Definition still_get {A} (k : clock) (own : rate) (template : A) (key : tvalue) : res (option (still_grain A)) :=
  if tv_eqb k (at_rate k key own) key
  then Ok (Some (mkSg template (as_ns k key) (as_ns k key)))
  else Ok None.

(** __contains__, abc.py 119-120. *)
Definition contains {G} (get : tvalue -> res (option G)) (key : tvalue) : res bool :=
  rbind (get key) (fun o => Ok (match o with Some _ => true | None => false end)).
