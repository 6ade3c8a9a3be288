(** The strategies for random grains: /repo/mediagrains/hypothesis/strategies.py. A strategy is described by what can be drawn from
    it; how likely a value is, how examples shrink and what happens when too many are rejected are matters of the library
    hypothesis and not modelled. *)
From Coq Require Import String.
From Verif Require Import Base PyValue CogEnums VideoLayout GrainObj Event GrainSet GrainCopy Tools.
Local Open Scope list_scope.

(** ** Regular expressions: character classes, each with the least and the most number of repetitions. [$] also matches before a
    newline at the very end, so the library draws such texts too. *)
Definition among (s : str) (c : Z) : bool := existsb (Z.eqb c) s.
Definition between (a b c : Z) : bool := (a <=? c) && (c <=? b).
Definition piece : Type := (Z -> bool) * nat * option nat.
Fixpoint matches (r : list piece) : str -> bool :=
  match r with
  | [] => fun s => match s with [] => true | [c] => c =? 10 | _ => false end
  | (cls, lo, hi) :: r => fun s =>
      (fix go (s : str) (lo : nat) (hi : option nat) {struct s} : bool :=
         (Nat.eqb lo 0 && matches r s) ||
         match s, hi with
         | [], _ | _, Some O => false
         | c :: s, _ => cls c && go s (pred lo) (option_map pred hi)
         end) s lo hi
  end.
Definition lower (c : Z) : bool := between 97 122 c.
Definition digit (c : Z) : bool := between 48 57 c.
Definition word (c : Z) : bool := lower c || between 65 90 c || digit c || among $"_-" c.
Definition just_char (a : Z) : piece := (Z.eqb a, 1%nat, Some 1%nat).
(** strategies.py 111. *)
Definition type_regex : list piece :=
  map just_char $"urn:" ++ [(fun c => lower c || digit c, 1%nat, Some 1%nat); (fun c => lower c || digit c || (c =? 45), 0%nat, Some 31%nat); just_char 58;
   (fun c => lower c || digit c || among $"()+,-.:=@;$_!*'%/?#" c, 1%nat, None)].
(** strategies.py 112 and 114. *)
Definition topic_regex : list piece := [(word, 1%nat, None); (fun c => word c || (c =? 47), 0%nat, None)].
(** [str(timestamp)]: seconds, a colon and nanoseconds. *)
Definition time_text (s : str) : bool :=
  match rev s with
  | [] => false
  | c :: _ => digit c && matches [(Z.eqb 45, 0%nat, Some 1%nat); (digit, 1%nat, None); just_char 58; (digit, 1%nat, Some 9%nat)] s
  end.

(** ** Strategies of the library, by what they produce. *)
Inductive strat :=
| SUuids                                      (* shrinking_uuids, 70-72: any 16 bytes *)
| STimes                                      (* timestamps() of mediatimestamp: any timestamp of 48 bits of seconds *)
| STimeTexts                                  (* timestamps().map(str) *)
| SFracs (bounds : option (Z * Z))            (* fractions(), between bounds *)
| SFracDicts                                  (* fraction_dicts(), 75-81 *)
| SInts (bounds : option (Z * Z))             (* integers() *)
| SBools
| SSample (l : list Z)                        (* sampled_from(...).filter(...) *)
| SJust (v : pv)
| SRegex (r : list piece)                     (* from_regex *)
| SOr (s t : strat)                           (* one_of(s, t), s | t *)
| SLists (most : option Z) (s : strat)        (* lists *)
| SFilter (f : pv -> bool) (s : strat)        (* s.filter(f) *)
| SDict (l : list (str * strat)).             (* fixed_dictionaries *)
Definition in_bounds (b : option (Z * Z)) (z : Z) : bool := match b with None => true | Some (lo, hi) => (lo <=? z) && (z <=? hi) end.
Definition is_frac (b : option (Z * Z)) (n d : Z) : bool :=
  (0 <? d) && (Z.gcd n d =? 1) && match b with None => true | Some (lo, hi) => (lo * d <=? n) && (n <=? hi * d) end.
Fixpoint can_draw (s : strat) (v : pv) {struct s} : Prop :=
  match s with
  | SUuids => match v with PUuid u => (0 <=? u) && (u <? 2 ^ 128) = true | _ => False end
  | STimes => match v with PTime t => Z.abs t <? 281474976710656 * 1000000000 = true | _ => False end
  | STimeTexts => match v with PStr s => time_text s = true | _ => False end
  | SFracs b => match v with PFrac n d => is_frac b n d = true | _ => False end
  | SFracDicts => exists n d, is_frac None n d = true /\ v = PDict [($"numerator", PInt n); ($"denominator", PInt d)]
  | SInts b => match v with PInt z => in_bounds b z = true | _ => False end
  | SBools => match v with PBool _ => True | _ => False end
  | SSample l => match v with PInt z => member l z = true | _ => False end
  | SJust w => v = w
  | SRegex r => match v with PStr s => matches r s = true | _ => False end
  | SOr s t => can_draw s v \/ can_draw t v
  | SLists m s => match v with PList l => in_bounds (option_map (pair 0) m) (zlen l) = true /\ Forall (can_draw s) l | _ => False end
  | SFilter f s => f v = true /\ can_draw s v
  | SDict l =>
      match v with
      | PDict d =>
          (fix go (l : list (str * strat)) (d : dict) {struct l} : Prop :=
             match l, d with
             | [], [] => True
             | (k, s) :: l, (k', v) :: d => k = k' /\ can_draw s v /\ go l d
             | _, _ => False
             end) l d
      | _ => False
      end
  end.

(** ** The strategies for attributes, strategies.py 84-139. *)
(** attributes_for_grain_type with new=True, Grain.py 138-167. *)
Definition common_names : list str := [$"src_id"; $"flow_id"; $"origin_timestamp"; $"sync_timestamp"; $"creation_timestamp"; $"rate"; $"duration"].
Definition attributes_for (t : str) : list str :=
  common_names ++
  (if zlist_eqb t $"event" then [$"event_type"; $"topic"; $"event_data"]
   else if zlist_eqb t $"audio" then [$"cog_audio_format"; $"samples"; $"channels"; $"sample_rate"]
   else if zlist_eqb t $"coded_audio" then [$"cog_audio_format"; $"samples"; $"channels"; $"sample_rate"; $"priming"; $"remainder"]
   else if zlist_eqb t $"coded_video" then [$"cog_frame_format"; $"coded_width"; $"coded_height"; $"cog_frame_layout"; $"origin_width"; $"origin_height";
     $"is_key_frame"; $"temporal_offset"; $"unit_offsets"]
   else if zlist_eqb t $"video" then [$"cog_frame_format"; $"width"; $"height"; $"cog_frame_layout"] else []).
(** _format_strategy, 91-102; the ValueError it returns is raised when it is the one that is asked for. *)
Definition format_strategy (t : str) : res strat :=
  if zlist_eqb t $"audio" then Ok (SSample (filter (fun x => x <? 0x200) audio_formats))
  else if zlist_eqb t $"coded_audio" then Ok (SSample (filter (fun x => negb (Z.land x 0x200 =? 0) && negb (x =? 0xffffffff)) audio_formats))
  else if zlist_eqb t $"video" then Ok (SSample (filter (fun x => Z.land (Z.shiftr x 9) 1 =? 0) frame_formats))
  else if zlist_eqb t $"coded_video" then Ok (SSample (filter (fun x => negb (Z.land x 0x200 =? 0) && negb (x =? 0xffffffff)) frame_formats))
  else Err EValue.
Definition event_value : strat := SOr (SInts None) (SOr SBools (SOr SFracDicts STimeTexts)).
(** [.filter(sorted)] keeps the lists whose sorted copy is not empty. *)
Definition sorted_is_true (v : pv) : bool := match v with PList l => negb (zlen l =? 0) | _ => false end.
Definition attribute_strategies (t : str) : list (str * res strat) :=
  [($"src_id", Ok SUuids); ($"flow_id", Ok SUuids); ($"origin_timestamp", Ok STimes); ($"sync_timestamp", Ok STimes); ($"creation_timestamp", Ok STimes);
   ($"rate", Ok (SFracs (Some (0, 200)))); ($"duration", Ok (SFracs (Some (0, 200))));
   ($"event_type", Ok (SRegex type_regex)); ($"topic", Ok (SRegex topic_regex));
   ($"event_data", Ok (SLists None (SDict [($"path", SRegex topic_regex); ($"pre", event_value); ($"post", event_value)])));
   ($"cog_audio_format", format_strategy t); ($"cog_frame_format", format_strategy t);
   ($"samples", Ok (SInts (Some (1, 16)))); ($"channels", Ok (SInts (Some (1, 16)))); ($"sample_rate", Ok (SSample [48000; 44100]));
   ($"width", Ok (SJust (PInt 240))); ($"height", Ok (SJust (PInt 135)));
   ($"cog_frame_layout", Ok (SSample (filter (fun x => negb (x =? 0xfffffffe)) frame_layouts)));
   ($"priming", Ok (SInts (Some (0, 65535)))); ($"remainder", Ok (SInts (Some (0, 256))));
   ($"coded_width", Ok (SJust (PInt 240))); ($"coded_height", Ok (SJust (PInt 135)));
   ($"origin_width", Ok (SJust (PInt 240))); ($"origin_height", Ok (SJust (PInt 135)));
   ($"is_key_frame", Ok SBools); ($"temporal_offset", Ok (SInts (Some (0, 16))));
   ($"unit_offsets", Ok (SOr (SJust PNone) (SFilter sorted_is_true (SLists (Some 16) (SInts (Some (0, 256)))))))].
Definition strategy_for (n t : str) : res strat := match dget n (attribute_strategies t) with Some r => r | None => Err EValue end.

(** ** The arguments of the strategies for grains. *)
Inductive sarg := Unset (* None *) | DoNotSet | Value (v : pv) | From (s : strat).
(** _grain_strategy, 142-154. *)
Definition strategy_of (t n : str) (a : sarg) : res (list (str * strat)) :=
  match a with
  | Unset | Value PNone => rbind (strategy_for n t) (fun s => Ok [(n, s)])
  | DoNotSet => Ok []
  | From s => Ok [(n, s)]
  | Value v => Ok [(n, SJust v)]
  end.
Definition grain_strategy (t : str) (kwargs : list (str * sarg)) : res (list (str * strat)) :=
  rbind (map_res (fun n => strategy_of t n (match dget n kwargs with Some a => a | None => Unset end)) (attributes_for t)) (fun l => Ok (concat l)).
(** A call with keyword arguments of a function with these parameters and defaults. *)
Definition call (params args : list (str * sarg)) : res (list (str * sarg)) :=
  if forallb (fun na => dhas (fst na) params) args
  then Ok (map (fun p => (fst p, match dget (fst p) args with Some a => a | None => snd p end)) params)
  else Err EType.
Definition common_params : list (str * sarg) :=
  [($"src_id", Unset); ($"flow_id", Unset); ($"creation_timestamp", Unset); ($"origin_timestamp", Unset); ($"sync_timestamp", Unset);
   ($"rate", DoNotSet); ($"duration", DoNotSet)].
(** The parameters of the six: 157-163, 201-211, 261-273, 328-338, 386-401, 544-553. *)
Definition params (t : str) : list (str * sarg) :=
  common_params ++
  (if zlist_eqb t $"audio" then [($"format", Unset); ($"samples", Unset); ($"channels", Unset); ($"sample_rate", Unset)]
   else if zlist_eqb t $"coded_audio" then [($"format", Unset); ($"samples", Unset); ($"channels", Unset); ($"priming", DoNotSet); ($"remainder", DoNotSet); ($"sample_rate", Unset)]
   else if zlist_eqb t $"video" then [($"format", Unset); ($"width", Unset); ($"height", Unset); ($"cog_frame_layout", Unset)]
   else if zlist_eqb t $"coded_video" then [($"format", Unset); ($"coded_width", Unset); ($"coded_height", Unset); ($"cog_frame_layout", Unset); ($"origin_width", Unset);
     ($"origin_height", Unset); ($"is_key_frame", Unset); ($"temporal_offset", Unset); ($"unit_offsets", Unset)]
   else if zlist_eqb t $"event" then [($"event_type", Unset); ($"topic", Unset); ($"event_data", Unset)] else []).
(** event_grains, 584-587. *)
Definition event_default (n : str) (a : sarg) : sarg :=
  match a with DoNotSet => if zlist_eqb n $"rate" then Value (PFrac 25 1) else if zlist_eqb n $"duration" then Value (PFrac 1 25) else DoNotSet | _ => a end.
(** What each passes on: 191-198, 247-258, 313-325 (all but creation_timestamp), 372-383, 444-460, 614-624. *)
Definition passed (t : str) (kwargs : list (str * sarg)) : list (str * sarg) :=
  if zlist_eqb t $"coded_audio" then ddel $"creation_timestamp" kwargs
  else if zlist_eqb t $"event" then
    map (fun na => (fst na, event_default (fst na) (snd na))) kwargs
  else kwargs.
(** grains, 463-479, with the six. *)
Definition grain_types : list str := [$"empty"; $"audio"; $"coded_audio"; $"event"; $"video"; $"coded_video"].
Definition grains (t : str) (args : list (str * sarg)) : res (list (str * strat)) :=
  if existsb (zlist_eqb t) grain_types then rbind (call (params t) args) (fun kwargs => grain_strategy t (passed t kwargs)) else Err EValue.

(** ** Building: [builds(builder, **new_kwargs)], with one value drawn for each. *)
Definition drawn (l : list (str * strat)) (d : dict) : Prop := Forall2 (fun ns nv => fst nv = fst ns /\ can_draw (snd ns) (snd nv)) l d.
(** The keyword arguments of the constructors; values of other types than these are not modelled. *)
Definition arg_uuid (n : str) (d : dict) : res (option Z) :=
  match dget n d with None | Some PNone => Ok None | Some (PUuid u) => Ok (Some u) | Some _ => Err EAttr end.
Definition arg_time (n : str) (d : dict) : res (option Z) :=
  match dget n d with None | Some PNone => Ok None | Some (PTime t) => Ok (Some t) | Some _ => Err EUnsupported end.
Definition arg_frac (n : str) (default : Z * Z) (d : dict) : res (Z * Z) :=
  match dget n d with
  | None => Ok default
  | Some v => rbind (mk_frac v (PInt 1)) (fun f => match f with PFrac n d => Ok (n, d) | _ => Err EType end)
  end.
Definition arg_int (n : str) (default : Z) (d : dict) : res Z :=
  match dget n d with None => Ok default | Some (PInt z) => Ok z | Some _ => Err EUnsupported end.
Definition arg_int_or_none (n : str) (d : dict) : res (option Z) :=
  match dget n d with None | Some PNone => Ok None | Some (PInt z) => Ok (Some z) | Some _ => Err EUnsupported end.
Definition arg_bool_or_none (n : str) (d : dict) : res (option bool) :=
  match dget n d with None | Some PNone => Ok None | Some (PBool b) => Ok (Some b) | Some _ => Err EUnsupported end.
Definition arg_text (n : str) (d : dict) : res str :=
  match dget n d with None => Ok [] | Some (PStr s) => Ok s | Some _ => Err EUnsupported end.
Definition arg_ints (n : str) (d : dict) : res (option (list Z)) :=
  match dget n d with
  | None | Some PNone => Ok None
  | Some (PList l) => rbind (map_res (fun v => match v with PInt z => Ok z | _ => Err EUnsupported end) l) (fun l => Ok (Some l))
  | Some _ => Err EUnsupported
  end.
Definition arg_kw (rate duration : Z * Z) (d : dict) : res kw :=
  rbind (arg_uuid $"src_id" d) (fun s => rbind (arg_uuid $"flow_id" d) (fun f => rbind (arg_time $"origin_timestamp" d) (fun o => rbind (arg_time $"sync_timestamp" d) (fun y =>
  rbind (arg_time $"creation_timestamp" d) (fun c => rbind (arg_frac $"rate" rate d) (fun r => rbind (arg_frac $"duration" duration d) (fun u => Ok (mkKw s f o y c r u)))))))).
(** event_grain, strategies.py 589-612: all of its parameters are needed. *)
Fixpoint append_all (l : list pv) (o : gobj) : res gobj :=
  match l with
  | [] => Ok o
  | v :: l =>
      rbind (sub $"path" v) (fun path => rbind (sub $"pre" v) (fun pre => rbind (sub $"post" v) (fun post =>
      match apply_op (Append path pre post) o with (o, None) => append_all l o | (_, Some e) => Err e end)))
  end.
(** The defaults: Grain.py 65-66, AudioGrain.py 110-115, CodedAudioGrain.py 102-109, VideoGrain.py 256-261, CodedVideoGrain.py 115-126. *)
Definition build (t : str) (now : Z) (d : dict) : res gobj :=
  if zlist_eqb t $"audio" then
    rbind (arg_kw (25, 1) (1, 25) d) (fun k => rbind (arg_int $"cog_audio_format" 0xffffffff d) (fun f => rbind (arg_int $"samples" 0 d) (fun s =>
    rbind (arg_int $"channels" 0 d) (fun c => rbind (arg_int $"sample_rate" 48000 d) (fun r => kw_audio now k f s c r ANone)))))
  else if zlist_eqb t $"coded_audio" then
    rbind (arg_kw (25, 1) (1, 25) d) (fun k => rbind (arg_int $"cog_audio_format" 0xffffffff d) (fun f => rbind (arg_int $"samples" 0 d) (fun s =>
    rbind (arg_int $"channels" 0 d) (fun c => rbind (arg_int $"priming" 0 d) (fun p => rbind (arg_int $"remainder" 0 d) (fun m =>
    rbind (arg_int $"sample_rate" 48000 d) (fun r => kw_coded_audio now k f s c p m r None ANone)))))))
  else if zlist_eqb t $"video" then
    rbind (arg_kw (25, 1) (1, 25) d) (fun k => rbind (arg_int $"cog_frame_format" UNKNOWN_FRAME d) (fun f => rbind (arg_int $"width" 1920 d) (fun w =>
    rbind (arg_int $"height" 1080 d) (fun h => rbind (arg_int $"cog_frame_layout" 0xfffffffe d) (fun l => kw_video now k f w h l ANone)))))
  else if zlist_eqb t $"coded_video" then
    rbind (arg_kw (25, 1) (1, 25) d) (fun k => rbind (arg_int $"cog_frame_format" UNKNOWN_FRAME d) (fun f => rbind (arg_int $"origin_width" 1920 d) (fun ow =>
    rbind (arg_int $"origin_height" 1080 d) (fun oh => rbind (arg_int_or_none $"coded_width" d) (fun cw => rbind (arg_int_or_none $"coded_height" d) (fun ch =>
    rbind (arg_bool_or_none $"is_key_frame" d) (fun key => rbind (arg_int_or_none $"temporal_offset" d) (fun temporal =>
    rbind (arg_int $"cog_frame_layout" 0xfffffffe d) (fun l => rbind (arg_ints $"unit_offsets" d) (fun u =>
    kw_coded_video now k f ow oh cw ch key temporal None l u ANone))))))))))
  else if zlist_eqb t $"event" then
    if negb (forallb (fun n => dhas n d) (attributes_for t)) then Err EType else
    rbind (arg_kw (25, 1) (1, 25) d) (fun k => rbind (arg_text $"event_type" d) (fun kind => rbind (arg_text $"topic" d) (fun topic =>
    rbind (kw_event now k kind topic ANone) (fun o => rbind (rbind (ditem $"event_data" d) as_list) (fun l => append_all l o)))))
  else rbind (arg_kw (0, 1) (0, 1) d) (fun k => kw_factory now k ANone).

(** ** Payloads, strategies.py 496-541. *)
Inductive dstrat := DBinary (n : Z) | DFloats (width n : Z) | DJust (b : bytes).
(** Floats that are at least 0.0, neither NaN nor infinite, packed in the (little-endian) byte order of the machine: no sign bit, and
    not all bits of the exponent. *)
Definition plain_single (s : bytes) : bool := match s with [a; b; c; d] => forallb (between 0 255) s && (d * 2 + c / 128 <? 255) | _ => false end.
Definition plain_double (s : bytes) : bool := match s with [a; b; c; d; e; f; g; h] => forallb (between 0 255) s && (h * 16 + g / 16 <? 2047) | _ => false end.
Definition can_draw_data (s : dstrat) (b : bytes) : Prop :=
  match s with
  | DBinary n => zlen b = n /\ forallb (between 0 255) b = true
  | DFloats w n => exists l, zlen l = n /\ b = concat l /\ Forall (fun x => (if w =? 32 then plain_single x else plain_double x) = true) l
  | DJust c => b = c
  end.
(** 504-534; [given] is the argument data when it is a byte string. *)
Definition data_strategy (o : gobj) (given : option bytes) : res dstrat :=
  match given with
  | Some b => Ok (DJust b)
  | None =>
      rbind (getattr o $"grain_type") (fun t =>
      if type_is t $"audio" then
        rbind (rbind (getattr o $"format") to_int) (fun f => rbind (expected_length o) (fun n =>
        if member [0x18; 0x19; 0x1a] f then Ok (DFloats 32 (n / 4)) else if member [0x2c; 0x2d; 0x2e] f then Ok (DFloats 64 (n / 8)) else Ok (DBinary n)))
      else rbind (rbind (getattr o $"length") to_int) (fun n => Ok (DBinary n)))
  end.
(** grain_with_data, 536-539. *)
Definition with_payload (now : Z) (o : gobj) (b : bytes) : res gobj := rbind (copy_obj now o) (set_data (ABytes b)).
(** grains_with_data, 482-493: the arguments of the strategy for the template, and whether there is more to it. *)
Definition template_args (t : str) : list (str * sarg) :=
  if zlist_eqb t $"video" then [($"width", Value (PInt 16)); ($"height", Value (PInt 9))]
  else if zlist_eqb t $"coded_video" then [($"origin_width", Value (PInt 16)); ($"origin_height", Value (PInt 9))] else [].
Definition has_payload (t : str) : bool := existsb (zlist_eqb t) [$"video"; $"coded_video"; $"audio"; $"coded_audio"].

(** The grains that can be drawn at some moment. *)
Definition can_be (t : str) (args : list (str * sarg)) (now : Z) (r : res gobj) : Prop :=
  exists l d, grains t args = Ok l /\ drawn l d /\ build t now d = r.
Definition can_be_with_data (t : str) (now : Z) (r : res gobj) : Prop :=
  if has_payload t then
    exists r0, can_be t (template_args t) now r0 /\
      match r0 with
      | Err e => r = Err e
      | Ok o => match data_strategy o None with
                | Err e => r = Err e
                | Ok s => exists b, can_draw_data s b /\ r = with_payload now o b
                end
      end
  else can_be t [] now r.
