(** The times of grains: /repo/mediagrains/grains/Grain.py 456-486, AudioGrain.py 176-177 and 223-228, CodedAudioGrain.py 181-182 and
    240-245, VideoGrain.py 545-550, CodedVideoGrain.py 409-444.

    TimeOffset, Timestamp and TimeRange are classes of the mediatimestamp library. Times are nanoseconds; counts become times by a
    [clock] as in PatternTime.v; a rate that is not positive raises an exception of the library, here [EValue]. Sample rates, samples
    and temporal offsets that are not integers are not modelled. *)
From Coq Require Import String.
From Verif Require Import Base CogEnums GsfEncode PatternTime PyValue GrainObj GrainGsf.
Local Open Scope list_scope.

(** TimeRange with a start that is included: no time at all, or from [a] to [b], which is included or not. *)
Inductive span := Never | Span (a b : Z) (incl : bool).
(** TimeRange(a, b, INCLUSIVE) and TimeRange(a, b, INCLUDE_START). *)
Definition time_range (a b : Z) (incl : bool) : span := if (b <? a) || ((b =? a) && negb incl) then Never else Span a b incl.
(** TimeOffset.from_count(c, n, d). *)
Definition of_count (k : clock) (c : Z) (r : rate) : res Z := if (fst r <=? 0) || (snd r <=? 0) then Err EValue else Ok (from_count k c (fst r) (snd r)).
(** TimeOffset.normalise and TimeRange.normalise: to whole counts at a rate; the range becomes half open. *)
Definition normal_time (k : clock) (r : rate) (t : Z) : res Z := if (fst r <=? 0) || (snd r <=? 0) then Err EValue else Ok (from_count k (to_count k t (fst r) (snd r)) (fst r) (snd r)).
Definition normal_span (k : clock) (r : rate) (s : span) : res span :=
  if (fst r <=? 0) || (snd r <=? 0) then Err EValue else
  Ok (match s with
      | Never => Never
      | Span a b i => time_range (from_count k (to_count k a (fst r) (snd r)) (fst r) (snd r))
                                 (from_count k (to_count k b (fst r) (snd r) + (if i then 1 else 0)) (fst r) (snd r)) false
      end).
(** TimeRange.extend_to_encompass_timerange. Of two ends at the same time the included one counts. *)
Definition extended (s s' : span) : span :=
  match s, s' with
  | Never, x | x, Never => x
  | Span a b i, Span a' b' i' => Span (Z.min a a') (Z.max b b') (if b =? b' then i || i' else if b <? b' then i' else i)
  end.

(** final_origin_timestamp, Grain.py 456-457, AudioGrain.py 176-177, CodedAudioGrain.py 181-182. *)
Definition final_origin_timestamp (k : clock) (o : gobj) : res Z :=
  match o_class o with
  | KAudio | KCodedAudio =>
      rbind (attr as_time $"origin_timestamp" o) (fun t => rbind (attr as_count $"samples" o) (fun s => rbind (attr as_count $"sample_rate" o) (fun r =>
      rbind (of_count k (s - 1) (r, 1)) (fun d => Ok (t + d)))))
  | _ => attr as_time $"origin_timestamp" o
  end.
(** origin_timerange, Grain.py 459-460. *)
Definition origin_timerange (k : clock) (o : gobj) : res span :=
  rbind (attr as_time $"origin_timestamp" o) (fun a => rbind (final_origin_timestamp k o) (fun b => Ok (time_range a b true))).
(** media_rate, Grain.py 484-486, VideoGrain.py 545-550, CodedVideoGrain.py 409-414, AudioGrain.py 223-228, CodedAudioGrain.py 240-245. *)
Definition media_rate (o : gobj) : res (option rate) :=
  match o_class o with
  | KVideo | KCodedVideo => rbind (attr as_frac $"rate" o) (fun r => Ok (if fst r =? 0 then None else Some r))
  | KAudio | KCodedAudio => rbind (attr as_count $"sample_rate" o) (fun r => Ok (if r =? 0 then None else Some (r, 1)))
  | _ => Ok None
  end.
(** normalise_time, Grain.py 478-482, of a time and of a range. *)
Definition normalise_time (k : clock) (o : gobj) (t : Z) : res Z :=
  rbind (media_rate o) (fun r => match r with Some r => normal_time k r t | None => Ok t end).
Definition normalise_range (k : clock) (o : gobj) (s : span) : res span :=
  rbind (media_rate o) (fun r => match r with Some r => normal_span k r s | None => Ok s end).

(** The offset in presentation, CodedVideoGrain.py 418-419; [None] for other classes and without a temporal offset. *)
Definition presentation_offset (k : clock) (o : gobj) : res (option Z) :=
  match o_class o with
  | KCodedVideo =>
      rbind (attr as_frac $"rate" o) (fun r => rbind (getattr o $"temporal_offset") (fun v =>
      match v with PNone => Ok None | _ => rbind (as_count v) (fun n => rbind (of_count k n r) (fun d => Ok (Some d))) end))
  | _ => Ok None
  end.
Definition moved (d : option Z) (t : Z) : Z := match d with Some d => t + d | None => t end.
(** presentation_origin_timestamp, final_presentation_origin_timestamp and presentation_origin_timerange, Grain.py 462-470,
    CodedVideoGrain.py 416-444. *)
Definition presentation_origin_timestamp (k : clock) (o : gobj) : res Z :=
  rbind (attr as_time $"origin_timestamp" o) (fun t => rbind (presentation_offset k o) (fun d => Ok (moved d t))).
Definition final_presentation_origin_timestamp (k : clock) (o : gobj) : res Z :=
  rbind (final_origin_timestamp k o) (fun t => rbind (presentation_offset k o) (fun d => Ok (moved d t))).
Definition presentation_origin_timerange (k : clock) (o : gobj) : res span :=
  rbind (origin_timerange k o) (fun s => rbind (presentation_offset k o) (fun d =>
  Ok (match s with Never => Never | Span a b i => time_range (moved d a) (moved d b) i end))).
