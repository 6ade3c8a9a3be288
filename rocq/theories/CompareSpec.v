(** What a comparison of grains means, said with the attributes of the grains and the options, not with the tree of results. *)
From Coq Require Import String.
From Verif Require Import Base PyValue CogEnums GrainObj Compare.
Local Open Scope list_scope.

(** ** Payloads. *)
(** A float in little-endian bytes: NaN has all exponent bits set and a fraction that is not 0; there are two zeros. *)
Definition single_nan (s : bytes) : Prop :=
  exists a b c d, s = [a; b; c; d] /\ d mod 128 = 127 /\ 128 <= c /\ ~ (a = 0 /\ b = 0 /\ c = 128).
Definition single_zero (s : bytes) : Prop := s = [0; 0; 0; 0] \/ s = [0; 0; 0; 128].
Definition double_nan (s : bytes) : Prop :=
  exists a b c d e f g h, s = [a; b; c; d; e; f; g; h] /\ h mod 128 = 127 /\ 240 <= g /\
    ~ (a = 0 /\ b = 0 /\ c = 0 /\ d = 0 /\ e = 0 /\ f = 0 /\ g = 240).
Definition double_zero (s : bytes) : Prop := s = [0; 0; 0; 0; 0; 0; 0; 0] \/ s = [0; 0; 0; 0; 0; 0; 0; 128].
Definition same_float (nan zero : bytes -> Prop) (s t : bytes) : Prop := ~ nan s /\ ~ nan t /\ (s = t \/ zero s /\ zero t).
(** The i-th sample of n bytes. *)
Definition sample (n i : Z) (x : bytes) : bytes := zfirst n (zskip (n * i) x).
(** How a payload is looked at. *)
Inductive kind := Bytes | Triples | Singles | Doubles.
Definition payload_agrees (k : kind) (x y : bytes) : Prop :=
  match k with
  | Bytes => x = y
  | Triples => zfirst (3 * (zlen x / 3)) x = zfirst (3 * (zlen y / 3)) y
  | Singles => zlen x = zlen y /\ forall i, 0 <= i < zlen x / 4 -> same_float single_nan single_zero (sample 4 i x) (sample 4 i y)
  | Doubles => zlen x = zlen y /\ forall i, 0 <= i < zlen x / 8 -> same_float double_nan double_zero (sample 8 i x) (sample 8 i y)
  end.
Definition kind_of (c : code) : kind := match c with CS24 => Triples | Cf => Singles | Cd => Doubles | _ => Bytes end.

(** ** Options. *)
Inductive other_name : str -> str -> Prop :=
| on_src : other_name $"{}.src_id" $"{}.source_id" | on_vformat : other_name $"{}.cog_frame_format" $"{}.format"
| on_aformat : other_name $"{}.cog_audio_format" $"{}.format" | on_layout : other_name $"{}.cog_frame_layout" $"{}.layout".
Definition waived (opts : list copt) (id : str) : Prop := exists p, In (OExclude p) opts /\ (p = id \/ other_name id p).
(** A difference is as expected: 0, unless there are expectations for it, which then all hold. *)
Definition expected (opts : list copt) (id : str) (diff : Z) : Prop :=
  (forall m, In (OExpect id m) opts -> m diff = true) /\ ((forall m, ~ In (OExpect id m) opts) -> diff = 0).

(** ** Attributes. *)
Definition same_attr (a b : gobj) (n : str) : Prop := exists x y, getattr a n = Ok x /\ getattr b n = Ok y /\ py_eq x y = true.
Definition agree (opts : list copt) (a b : gobj) (n : str) : Prop := waived opts (path n) \/ same_attr a b n.
Definition times_agree (opts : list copt) (a b : gobj) (n : str) : Prop :=
  waived opts (path n) \/ exists s t, getattr a n = Ok (PTime s) /\ getattr b n = Ok (PTime t) /\ expected opts (path n) (s - t).
Definition lists_agree {A} (opts : list copt) (el : str -> A -> A -> Prop) (id : str) (a b : list A) : Prop :=
  (waived opts ($"len(" ++ id ++ $")") \/ List.length a = List.length b) /\
  forall i, (i < List.length a)%nat \/ (i < List.length b)%nat ->
    waived opts (at_index id (Z.of_nat i)) \/
    exists x y, nth_error a i = Some x /\ nth_error b i = Some y /\ el (at_index id (Z.of_nat i)) x y.
Definition dicts_agree (opts : list copt) (id : str) (d e : dict) : Prop :=
  forall k, dget k d <> None \/ dget k e <> None ->
    waived opts (at_key id k) \/ exists v w, dget k d = Some v /\ dget k e = Some w /\ py_eq v w = true.
Definition numbers_agree (opts : list copt) (id : str) (x y : Z) : Prop := expected opts id (x - y).
(** The payloads: with PSNR options (where they count) the matchers decide, else the contents. *)
Definition data_agree psnr (with_psnr : bool) (k : kind) (opts : list copt) (a b : gobj) : Prop :=
  waived opts (path $"data") \/
  (with_psnr = true /\ (exists m, In (OPsnr (path $"data") m) opts) /\
     exists v, psnr a b = Ok (Some v) /\ forall m, In (OPsnr (path $"data") m) opts -> m v = true) \/
  ((with_psnr = true -> forall m, ~ In (OPsnr (path $"data") m) opts) /\
     ((get_data a = Ok None /\ get_data b = Ok None) \/
      exists x y, get_data a = Ok (Some x) /\ get_data b = Ok (Some y) /\ payload_agrees k x y)).
(** Payloads count only if the formats are the same. *)
Definition data_if_format psnr (with_psnr : bool) (name : str) (k : Z -> kind) (opts : list copt) (a b : gobj) : Prop :=
  forall f, getattr a name = Ok (PInt f) -> getattr b name = Ok (PInt f) -> data_agree psnr with_psnr (k f) opts a b.
(** S24, FLOAT and DOUBLE in planes, pairs or interleaved. *)
Definition audio_kind (f : Z) : kind :=
  if member [0x4; 0x5; 0x6] f then Triples else if member [0x18; 0x19; 0x1a] f then Singles
  else if member [0x2c; 0x2d; 0x2e] f then Doubles else Bytes.
Definition same_or_none (a b : gobj) (n : str) : Prop :=
  exists x y, (getattr a n = Ok x \/ getattr a n = Err EAttr /\ x = PNone) /\ (getattr b n = Ok y \/ getattr b n = Err EAttr /\ y = PNone) /\ py_eq x y = true.
Definition known_types : list str := [$"event"; $"audio"; $"coded_audio"; $"video"; $"coded_video"].

(** What two grains of the same type [t] must agree on beside the common attributes. *)
Record same_type psnr (t : pv) (opts : list copt) (a b : gobj) : Prop := {
  st_event : t = PStr $"event" ->
    agree opts a b $"event_type" /\ agree opts a b $"topic" /\
    (waived opts (path $"event_data") \/
     exists d e, rbind (event_entries a) (map_res as_dict) = Ok d /\ rbind (event_entries b) (map_res as_dict) = Ok e /\
       lists_agree opts (dicts_agree opts) (path $"event_data") d e);
  st_audio : t = PStr $"audio" ->
    (forall n, In n [$"cog_audio_format"; $"samples"; $"channels"; $"sample_rate"] -> agree opts a b n) /\
    data_if_format psnr true $"cog_audio_format" audio_kind opts a b;
  st_coded_audio : t = PStr $"coded_audio" ->
    (forall n, In n [$"cog_audio_format"; $"samples"; $"channels"; $"sample_rate"; $"priming"; $"remainder"] -> agree opts a b n) /\
    data_if_format psnr false $"cog_audio_format" (fun _ => Bytes) opts a b;
  st_video : t = PStr $"video" ->
    (forall n, In n [$"cog_frame_format"; $"width"; $"height"; $"cog_frame_layout"] -> agree opts a b n) /\
    data_if_format psnr true $"cog_frame_format" (fun _ => Bytes) opts a b;
  st_coded_video : t = PStr $"coded_video" ->
    (forall n, In n [$"cog_frame_format"; $"coded_width"; $"coded_height"; $"origin_width"; $"origin_height"; $"is_key_frame"; $"temporal_offset"; $"cog_frame_layout"] ->
       waived opts (path n) \/ same_or_none a b n) /\
    (waived opts (path $"unit_offsets") \/
     exists x y, rbind (offsets a) (map_res as_number) = Ok x /\ rbind (offsets b) (map_res as_number) = Ok y /\
       lists_agree opts (numbers_agree opts) (path $"unit_offsets") x y) /\
    data_if_format psnr false $"cog_frame_format" (fun _ => Bytes) opts a b;
  st_other : ~ In t (map PStr known_types) -> data_agree psnr false Bytes opts a b }.

Definition has_type (o : gobj) (t : str) : Prop := getattr o $"grain_type" = Ok (PStr t).
Record grains_agree psnr (opts : list copt) (a b : gobj) : Prop := {
  ga_plain : forall n, In n [$"grain_type"; $"src_id"; $"flow_id"; $"rate"; $"duration"] -> agree opts a b n;
  ga_length : agree opts a b $"length" \/
    (has_type a $"event" /\ has_type b $"event" /\ exists n, In n [$"event_type"; $"topic"; $"event_data"] /\ waived opts (path n));
  ga_times : forall n, In n [$"origin_timestamp"; $"sync_timestamp"] -> times_agree opts a b n;
  ga_creation : In (Include $"creation_timestamp") opts -> times_agree opts a b $"creation_timestamp";
  ga_labels : waived opts (path $"timelabels") \/
    exists d e, labels a = Ok d /\ labels b = Ok e /\ lists_agree opts (dicts_agree opts) (path $"timelabels") d e;
  ga_type : forall t u, getattr a $"grain_type" = Ok t -> getattr b $"grain_type" = Ok u -> py_eq t u = true -> same_type psnr t opts a b }.

(** ** When a comparison goes through at all. *)
(** Braces in the keys of labels and of event data are taken for fields, unless they are doubled. *)
Inductive spelled : str -> Prop :=
| sp_end : spelled []
| sp_plain c s : c <> 123 -> c <> 125 -> spelled s -> spelled (c :: s)
| sp_open s : spelled s -> spelled (123 :: 123 :: s)
| sp_close s : spelled s -> spelled (125 :: 125 :: s).
Definition keys_spelled (read : gobj -> res (list dict)) (a b : gobj) : Prop :=
  forall la lb i d e k, read a = Ok la -> read b = Ok lb -> nth_error la i = Some d -> nth_error lb i = Some e ->
    In k (map fst d ++ map fst e) -> spelled k.
Definition entries (o : gobj) : res (list dict) := rbind (event_entries o) (map_res as_dict).
Definition readable (o : gobj) (n : str) : Prop := exists v, getattr o n = Ok v.
Definition audio_unit (f : Z) : Z :=
  if member [0x0; 0x1; 0x2] f then 2 else if member [0x8; 0x9; 0xa; 0x18; 0x19; 0x1a] f then 4
  else if member [0xc; 0x2c; 0x2d; 0x2e] f then 8 else 1.
Definition video_unit (f : Z) : Z :=
  if f =? v210 then 4 else if f =? v216 then 2 else if IS_COMPRESSED f || IS_PACKED f then 1
  else if BYTES_PER_VALUE f =? 1 then 1 else if BYTES_PER_VALUE f =? 2 then 2 else 4.
(** The payload is there to be read in whole units, or PSNR can be computed. *)
Definition can_data (psnr : gobj -> gobj -> res (option (list Z))) (with_psnr : bool) (unit : Z) (opts : list copt) (a b : gobj) : Prop :=
  (with_psnr = true -> (exists m, In (OPsnr (path $"data") m) opts) -> waived opts (path $"data") \/ exists p, psnr a b = Ok p) /\
  ((with_psnr = true -> forall m, ~ In (OPsnr (path $"data") m) opts) ->
     forall o, o = a \/ o = b -> exists d, get_data o = Ok d /\ forall x, d = Some x -> zlen x mod unit = 0).
Definition can_if_format psnr (with_psnr : bool) (name : str) (unit : Z -> Z) (opts : list copt) (a b : gobj) : Prop :=
  forall f, getattr a name = Ok (PInt f) -> getattr b name = Ok (PInt f) -> can_data psnr with_psnr (unit f) opts a b.
Record can_type psnr (t : pv) (opts : list copt) (a b : gobj) : Prop := {
  ct_event : t = PStr $"event" -> forall o, o = a \/ o = b ->
    readable o $"event_type" /\ readable o $"topic" /\ exists d, rbind (event_entries o) (map_res as_dict) = Ok d;
  ct_audio : t = PStr $"audio" ->
    (forall o, o = a \/ o = b -> forall n, In n [$"cog_audio_format"; $"samples"; $"channels"; $"sample_rate"] -> readable o n) /\
    can_if_format psnr true $"cog_audio_format" audio_unit opts a b;
  ct_coded_audio : t = PStr $"coded_audio" ->
    (forall o, o = a \/ o = b -> forall n, In n [$"cog_audio_format"; $"samples"; $"channels"; $"sample_rate"; $"priming"; $"remainder"] -> readable o n) /\
    can_if_format psnr false $"cog_audio_format" (fun _ => 1) opts a b;
  ct_video : t = PStr $"video" ->
    (forall o, o = a \/ o = b -> forall n, In n [$"cog_frame_format"; $"width"; $"height"; $"cog_frame_layout"] -> readable o n) /\
    can_if_format psnr true $"cog_frame_format" video_unit opts a b;
  ct_coded_video : t = PStr $"coded_video" ->
    (forall o, o = a \/ o = b -> readable o $"cog_frame_format" /\
       (forall n, In n [$"coded_width"; $"coded_height"; $"origin_width"; $"origin_height"; $"is_key_frame"; $"temporal_offset"; $"cog_frame_layout"] ->
          readable o n \/ getattr o n = Err EAttr) /\
       exists l, rbind (offsets o) (map_res as_number) = Ok l) /\
    can_if_format psnr false $"cog_frame_format" (fun _ => 1) opts a b;
  ct_other : ~ In t (map PStr known_types) -> can_data psnr false 1 opts a b }.
Record can_compare psnr (opts : list copt) (a b : gobj) : Prop := {
  cc_plain : forall o, o = a \/ o = b -> forall n, In n [$"grain_type"; $"src_id"; $"flow_id"; $"rate"; $"duration"; $"length"] -> readable o n;
  cc_times : forall o, o = a \/ o = b -> forall n, In n [$"origin_timestamp"; $"sync_timestamp"; $"creation_timestamp"] -> readable o n;
  cc_labels : forall o, o = a \/ o = b -> exists l, labels o = Ok l;
  cc_type : forall t u, getattr a $"grain_type" = Ok t -> getattr b $"grain_type" = Ok u -> py_eq t u = true -> can_type psnr t opts a b;
  cc_label_keys : keys_spelled labels a b;
  cc_entry_keys : has_type a $"event" -> has_type b $"event" -> keys_spelled entries a b }.

(** ** Sequences. *)
(** n pairs are compared: all but the last agree, and it stops early only at a pair that does not. *)
Definition pairs_compared {A} (agrees : A -> A -> Prop) (a b : list A) (n : nat) : Prop :=
  (n <= List.length a)%nat /\ (n <= List.length b)%nat /\
  (forall i x y, (S i < n)%nat -> nth_error a i = Some x -> nth_error b i = Some y -> agrees x y) /\
  ((n < List.length a)%nat -> (n < List.length b)%nat -> exists i x y, n = S i /\ nth_error a i = Some x /\ nth_error b i = Some y /\ ~ agrees x y).

(** ** Reflexivity and symmetry: no matchers, and for the former no NaN. *)
Definition no_matchers (opts : list copt) : Prop := (forall p m, ~ In (OExpect p m) opts) /\ (forall p m, ~ In (OPsnr p m) opts).
Definition no_nan (o : gobj) : Prop :=
  forall f x, getattr o $"cog_audio_format" = Ok (PInt f) -> get_data o = Ok (Some x) ->
    (audio_kind f = Singles -> forall i, 0 <= i < zlen x / 4 -> ~ single_nan (sample 4 i x)) /\
    (audio_kind f = Doubles -> forall i, 0 <= i < zlen x / 8 -> ~ double_nan (sample 8 i x)).
Definition meta_ok (o : gobj) : Prop := pv_ok (PDict (o_meta o)).
(** The stored payload is made of bytes (that of an event grain is computed). *)
Definition stored_ok (o : gobj) : Prop := forall x, o_data o = Some x -> bytes_ok x.
