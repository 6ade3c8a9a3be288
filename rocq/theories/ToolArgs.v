(** What the command line tools make of their options: wrap_video_in_gsf and wrap_audio_in_gsf, /repo/mediagrains/tools/wrap_in_gsf.py 61-116 and
    119-185, from the options as argparse has converted them up to the template and the wrapper. Non-ASCII digits and white space in --size, and the
    limit of 4300 digits on integers, are not modelled. *)
From Coq Require Import String.
From Verif Require Import Base PyValue CogEnums PatternTime GrainObj.
Local Open Scope list_scope.

(** ** [int] of a text, of the standard library: white space, a sign, digits with single underscores between them. *)
Definition is_space (c : Z) : bool := ((9 <=? c) && (c <=? 13)) || ((28 <=? c) && (c <=? 32)).
Fixpoint lstrip (s : str) : str := match s with c :: t => if is_space c then lstrip t else s | [] => [] end.
Definition strip (s : str) : str := rev (lstrip (rev (lstrip s))).
Definition is_digit (c : Z) : bool := (48 <=? c) && (c <=? 57).
Fixpoint more_digits (n : Z) (s : str) : res Z :=
  match s with
  | [] => Ok n
  | c :: s =>
      if is_digit c then more_digits (10 * n + (c - 48)) s
      else if c =? 95 then match s with d :: s => if is_digit d then more_digits (10 * n + (d - 48)) s else Err EValue | [] => Err EValue end
      else Err EValue
  end.
Definition natural (s : str) : res Z := match s with c :: t => if is_digit c then more_digits (c - 48) t else Err EValue | [] => Err EValue end.
Definition int_of (s : str) : res Z :=
  match strip s with
  | 43 :: t => natural t
  | 45 :: t => rbind (natural t) (fun n => Ok (- n))
  | t => natural t
  end.
(** [s.split("x")]. *)
Fixpoint split_x (s : str) : list str :=
  match s with
  | [] => [[]]
  | c :: s => if c =? 120 then [] :: split_x s else match split_x s with p :: ps => (c :: p) :: ps | [] => [[c]] end
  end.
(** wrap_in_gsf.py 91: every element is converted before they are counted; either failure is a ValueError. *)
Definition parse_size (s : str) : res (Z * Z) :=
  rbind (map_res (fun e => int_of (strip e)) (split_x s)) (fun l => match l with [w; h] => Ok (w, h) | _ => Err EValue end).

(** ** wrap_video_in_gsf. The options, 68-86, with their defaults. [--format] is a member of CogFrameFormat. *)
Record video_options := mkVo { vo_flow : option Z; vo_source : option Z; vo_start : Z; vo_size : str; vo_format : Z; vo_rate : Z }.
Definition no_video_options : video_options := mkVo None None 0 $"1920x1080" S16_422_10BIT 25.
Inductive wrapper := RawWrapper | H264Wrapper | AdtsWrapper.
(** [args.flow_id if args.flow_id else uuid.uuid4()]: a UUID is true. *)
Definition id_or (o : option Z) (fresh : Z) : Z := match o with Some u => u | None => fresh end.
(** [Fraction(n, d)] and [1/Fraction(d)] with the sign in the numerator. *)
Definition ratio (n d : Z) : res (Z * Z) := if d =? 0 then Err EZeroDiv else Ok (if d <? 0 then fraction (- n) (- d) else fraction n d).
(** 90-112. [fresh_flow] and [fresh_source] are the identifiers that uuid4 makes up, [now] the time. *)
Definition video_template (now fresh_flow fresh_source : Z) (a : video_options) : res (gobj * wrapper) :=
  rbind (parse_size (vo_size a)) (fun '(w, h) =>
  rbind (ratio 1 (vo_rate a)) (fun duration =>
  let k := mkKw (Some (id_or (vo_source a) fresh_source)) (Some (id_or (vo_flow a) fresh_flow)) (Some (vo_start a)) None None (vo_rate a, 1) duration in
  if (vo_format a =? H264) || (vo_format a =? AVCI) then
    rbind (kw_coded_video now k (vo_format a) w h (Some 0) (Some 0) None None None 0xfffffffe None ANone) (fun t => Ok (t, H264Wrapper))
  else rbind (kw_video now k (vo_format a) w h 0xfffffffe ANone) (fun t => Ok (t, RawWrapper)))).

(** cogenums.py 106 and 123. *)
Definition S16_PLANES : Z := 0x0.
Definition AAC : Z := 0x201.
(** ** wrap_audio_in_gsf. The options, 126-145, with their defaults: numbers that are not given are None. *)
Record audio_options := mkAo { ao_flow : option Z; ao_source : option Z; ao_start : Z; ao_channels : option Z; ao_samples : option Z; ao_format : Z; ao_rate : option Z }.
Definition no_audio_options : audio_options := mkAo None None 0 None None S16_PLANES None.
Definition opt_int (o : option Z) : pv := match o with Some z => PInt z | None => PNone end.
(** [Fraction(samples, rate)] of numbers that may be None: without the second the first alone is taken; None is no Rational. *)
Definition ratio_opt (n d : option Z) : res (Z * Z) :=
  match n, d with Some n, Some d => ratio n d | Some n, None => Ok (n, 1) | None, _ => Err EType end.
Definition or_int (o : option Z) (z : Z) : Z := match o with Some x => x | None => z end.
(** 147-180. A coded grain takes the numbers as they are, None or not (CodedAudioGrain.py 112-155); its payload is empty. *)
Definition audio_template (now fresh_flow fresh_source : Z) (a : audio_options) : res (gobj * wrapper) :=
  let k := mkKw (Some (id_or (ao_source a) fresh_source)) (Some (id_or (ao_flow a) fresh_flow)) (Some (ao_start a)) None None (0, 1) in
  if ao_format a =? AAC then
    rbind (ratio_opt (ao_samples a) (ao_rate a)) (fun duration =>
    rbind (coded_audio_init 0 now
      (kw_grain $"coded_audio" now (k duration) [($"cog_coded_audio", PDict [($"format", PInt (ao_format a)); ($"samples", opt_int (ao_samples a)); ($"channels", opt_int (ao_channels a));
         ($"priming", PInt 0); ($"remainder", PInt 0); ($"sample_rate", opt_int (ao_rate a))])]) ANone) (fun t => Ok (t, AdtsWrapper)))
  else
    let channels := or_int (ao_channels a) 2 in
    let samples := or_int (ao_samples a) 1920 in
    let hz := or_int (ao_rate a) 48000 in
    rbind (ratio samples hz) (fun duration =>
    rbind (kw_audio now (k duration) (ao_format a) samples channels hz ANone) (fun t => Ok (t, RawWrapper))).
