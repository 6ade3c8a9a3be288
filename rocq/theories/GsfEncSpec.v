(** Specification vocabulary for the encoder: what the bytes of a file should be, which grains a call adds to it, and
    which histories of calls are considered. *)
From Verif Require Import Base Utf8 GsfPrim GsfBlock GsfDecode CogEnums GsfEncode GsfSpec GsfEncState.

(** ---------------------------------------------------------------- the bytes of a file *)

(** The bytes of a grain of the segment with local id [fst lg]. *)
Definition gbytes (major : Z) (lg : Z * grain) : bytes :=
  match enc_grain major (fst lg) (snd lg) with Ok bs => bs | Err _ => [] end.

Definition encodable (major : Z) (lg : Z * grain) : Prop := exists bs, enc_grain major (fst lg) (snd lg) = Ok bs.

(** The header with the given segment counts followed by the grains. *)
Definition file_so_far (e : enc) (segs : list (eseg * Z)) (tags : list (str * str)) (gs : list (Z * grain)) : bytes :=
  enc_file_header (e_major e) (e_minor e) ++ enc_head (e_id e) (e_created e) segs tags ++
  flat_map (gbytes (e_major e)) gs.

(** A finished file ends with the terminator. *)
Definition complete_file (e : enc) (segs : list (eseg * Z)) (tags : list (str * str)) (gs : list (Z * grain)) : bytes :=
  file_so_far e segs tags gs ++ terminator.

(** Segments with their counts. *)
Definition with_counts (c : segst -> Z) (segs : list segst) : list (eseg * Z) := map (fun s => (st_e s, c s)) segs.

(** The grains waiting to be written, segment by segment. *)
Definition waiting (segs : list segst) : list (Z * grain) :=
  flat_map (fun s => map (pair (st_local s)) (st_grains s)) segs.

(** How many of the grains belong to segment [l], and which. *)
Definition of_segment (l : Z) (gs : list (Z * grain)) : list grain := map snd (filter (fun x => fst x =? l) gs).
Definition occurs (l : Z) (gs : list (Z * grain)) : Z := zlen (of_segment l gs).

(** ---------------------------------------------------------------- which segment a grain goes to *)

(** The segments a request can mean: the one with that local id if a local id is given, else those with that id if
    an id is given, else all. *)
Definition candidates (keys : list (Z * bytes)) (sid : option bytes) (local : option Z) : list Z :=
  map fst (filter (fun k => match local with
                            | Some l => fst k =? l
                            | None => match sid with Some i => zlist_eqb (snd k) i | None => true end
                            end) keys).
Definition lowest (l : Z) (cs : list Z) : Prop := In l cs /\ Forall (Z.le l) cs.

(** [gs] up to the first grain that cannot be encoded. *)
Inductive Accepted (major l : Z) : list grain -> list (Z * grain) -> Prop :=
| Ac_all gs : Forall (fun g => encodable major (l, g)) gs -> Accepted major l gs (map (pair l) gs)
| Ac_stop gs g bad : Forall (fun g => encodable major (l, g)) gs -> ~ encodable major (l, g) ->
    Accepted major l (gs ++ g :: bad) (map (pair l) gs).

Inductive Routed (major : Z) (keys : list (Z * bytes)) (sid : option bytes) (local : option Z) (gs : list grain)
  : list (Z * grain) -> Prop :=
| Ro_none : candidates keys sid local = [] -> Routed major keys sid local gs []
| Ro_some l log : lowest l (candidates keys sid local) -> Accepted major l gs log ->
    Routed major keys sid local gs log.

Definition keys_of (e : enc) : list (Z * bytes) := map (fun s => (st_local s, st_id s)) (e_segs e).

(** What a call made while open encoder [n] is dumping should add to the file: header changes nothing, grains the
    grains, on the lowest-numbered segment that matches. *)
Inductive Sent (major : Z) (keys : list (Z * bytes)) (n : nat) : op -> list (Z * grain) -> Prop :=
| Sn_etag kv : Sent major keys n (EAddTag kv) []
| Sn_eseg id local tags : Sent major keys n (EAddSegment id local tags) []
| Sn_otag kv : Sent major keys n (OAddTag n kv) []
| Sn_oseg id local tags : Sent major keys n (OAddSegment n id local tags) []
| Sn_stag l kv : Sent major keys n (SAddTag l kv) []
| Sn_sflow l fl : Sent major keys n (SAddFlow l fl) []
| Sn_egrains gs sid local fresh log : Routed major keys sid local gs log -> Sent major keys n (EAddGrains gs sid local fresh) log
| Sn_ograins gs sid local fresh log : Routed major keys sid local gs log -> Sent major keys n (OAddGrains n gs sid local fresh) log
| Sn_sgrains l gs log : Routed major keys None (Some l) gs log -> Sent major keys n (SAddGrains l gs) log.

(** The calls a client can make in a synchronous session [n] besides ending it: anything on the encoder, on this open
    encoder and on segments. *)
Definition client (n : nat) (o : op) : Prop :=
  match o with
  | EAddTag _ | EAddSegment _ _ _ | EAddGrains _ _ _ _ | SAddTag _ _ | SAddFlow _ _ | SAddGrains _ _ => True
  | OAddTag m _ | OAddSegment m _ _ _ | OAddGrains m _ _ _ _ => m = n
  | _ => False
  end.

(** In an asynchronous session grains are only written when added through the open encoder. *)
Definition async_client (n : nat) (o : op) : Prop :=
  match o with
  | SAddTag _ _ | SAddFlow _ _ => True
  | OAddTag m _ | OAddSegment m _ _ _ | OAddGrains m _ _ _ _ => m = n
  | _ => False
  end.

Definition client_of (async : bool) (n : nat) (o : op) : Prop := if async then async_client n o else client n o.

(** A sequence of calls and all they add. *)
Inductive SentAll (major : Z) (keys : list (Z * bytes)) (n : nat) : list op -> list (Z * grain) -> Prop :=
| SA_nil : SentAll major keys n [] []
| SA_cons o ops log logs : Sent major keys n o log -> SentAll major keys n ops logs ->
    SentAll major keys n (o :: ops) (log ++ logs).

(** A grain added to an existing segment by its local id, through the encoder, the open encoder or the segment. *)
Definition adds (n : nat) (o : op) (l : Z) (gs : list grain) : Prop :=
  (exists sid fresh, o = EAddGrains gs sid (Some l) fresh) \/
  (exists sid fresh, o = OAddGrains n gs sid (Some l) fresh) \/
  o = SAddGrains l gs.

(** ---------------------------------------------------------------- complete sessions *)

(** The calls that write everything at once from state [e]: leaving a non-streaming session, or dump(). *)
Inductive at_once (e : enc) : list op -> Prop :=
| AO_exit n : e_streaming e = false -> e_sync e = Some n -> at_once e [Exit]
| AO_aexit n : e_streaming e = false -> e_async e = Some n -> at_once e [AExit]
| AO_dump : at_once e [StartDump true; EndDump].

(** The pairs of calls that start and end streaming from state [e], synchronously or not. *)
Inductive streams (e : enc) : bool -> op -> op -> Prop :=
| SM_with : e_streaming e = true -> streams e false Enter Exit
| SM_async_with : e_streaming e = true -> streams e true AEnter AExit
| SM_start : streams e false (StartDump false) EndDump.

(** What was in the output before and stays there: nothing if it can seek (it is truncated). *)
Definition prior (o : ofile) : bytes := if o_seek o then [] else o_data o.

(** The number of grains of a segment written so far or waiting. *)
Definition total (s : segst) : Z := st_wc s + zlen (st_grains s).

(** States that the methods can lead to. *)
Definition reachable (e : enc) : Prop :=
  exists out major minor id created streaming ops, e = run_ops (new_encoder out major minor id created streaming) ops.

(** The segments were all added through the encoder itself (none through an open encoder of an earlier session). *)
Definition from_encoder (e : enc) : Prop := Forall (fun s => st_parent s = ParEncoder) (e_segs e).

(** No dump is in progress. *)
Definition idle (e : enc) : Prop := Forall (fun s => ss_active s = false) (e_sess e).

(** Calls that add grains to segments that exist, and what they add. *)
Inductive Given (keys : list (Z * bytes)) : op -> list (Z * grain) -> Prop :=
| Gv_egrains gs sid local fresh l : lowest l (candidates keys sid local) ->
    Given keys (EAddGrains gs sid local fresh) (map (pair l) gs)
| Gv_ograins n gs sid local fresh l : lowest l (candidates keys sid local) ->
    Given keys (OAddGrains n gs sid local fresh) (map (pair l) gs)
| Gv_sgrains l gs : In l (map fst keys) -> Given keys (SAddGrains l gs) (map (pair l) gs).

Inductive GivenAll (keys : list (Z * bytes)) : list op -> list (Z * grain) -> Prop :=
| GA_nil : GivenAll keys [] []
| GA_cons o ops log logs : Given keys o log -> GivenAll keys ops logs -> GivenAll keys (o :: ops) (log ++ logs).

(** Histories that write everything at the end. *)
Inductive batch (e : enc) (ops : list op) : list op -> Prop :=
| BA_with : e_streaming e = false -> batch e ops (Enter :: ops ++ [Exit])
| BA_async_with : e_streaming e = false -> batch e ops (AEnter :: ops ++ [AExit])
| BA_dump : batch e ops (ops ++ [StartDump true; EndDump]).

(** The grains in the order in which a dump at the end writes them: segment by segment. *)
Definition segment_by_segment (segs : list segst) (gs : list (Z * grain)) : list (Z * grain) :=
  flat_map (fun s => map (pair (st_local s)) (of_segment (st_local s) gs)) segs.

(** The count a streaming dump leaves in the header. *)
Definition final_count (seekable : bool) (logs : list (Z * grain)) (s : segst) : Z :=
  if seekable then total s + occurs (st_local s) logs else -1.

(** Fragments of bytes with an 8-byte number after each, then the last fragment. *)
Fixpoint fill (frags : list bytes) (values : list Z) (last : bytes) : bytes :=
  match frags, values with
  | f :: fs, v :: vs => f ++ enc_sint 8 v ++ fill fs vs last
  | _, _ => last
  end.

(** ---------------------------------------------------------------- one session at a time *)

Definition current (e : enc) : option nat := match e_sync e with Some n => Some n | None => e_async e end.

(** Calls that respect the open session: sessions do not overlap, segments are only added through the session that is
    open (the encoder itself passes grains on to a synchronous session, and refuses segments during one). *)
Definition orderly_call (e : enc) (o : op) : Prop :=
  match o with
  | EAddSegment _ _ _ | EAddGrains _ _ _ _ => e_async e = None
  | OAddSegment n _ _ _ | OAddGrains n _ _ _ _ => current e = Some n
  | Enter | AEnter | StartDump _ => current e = None
  | _ => True
  end.

Inductive Orderly : enc -> list op -> Prop :=
| Or_nil e : Orderly e []
| Or_cons e o ops : orderly_call e o -> Orderly (fst (step e o)) ops -> Orderly e (o :: ops).

(** The states orderly histories lead to. *)
Definition orderly_state (e : enc) : Prop :=
  exists out major minor id created streaming ops,
    Orderly (new_encoder out major minor id created streaming) ops /\
    e = run_ops (new_encoder out major minor id created streaming) ops.

Definition locals (e : enc) : list Z := map st_local (e_segs e).

(** ---------------------------------------------------------------- changes to the header *)

(** The calls that start and end a synchronous dump. *)
Inductive starts (e : enc) : op -> op -> Prop :=
| St_with : e_streaming e = true -> starts e Enter Exit
| St_dump all_at_once : starts e (StartDump all_at_once) EndDump.

(** Adding a file tag, a segment, a segment tag or a flow. *)
Inductive header_change (n : nat) : op -> Prop :=
| HC_etag kv : header_change n (EAddTag kv)
| HC_eseg id local tags : header_change n (EAddSegment id local tags)
| HC_otag kv : header_change n (OAddTag n kv)
| HC_oseg id local tags : header_change n (OAddSegment n id local tags)
| HC_stag l kv : header_change n (SAddTag l kv)
| HC_sflow l fl : header_change n (SAddFlow l fl).

(** How a header change is refused during a dump in a state whose segments have the local ids [ls]: because of the
    dump; but a local id in use, or a segment that does not exist, is noticed first. *)
Inductive refusal (ls : list Z) : op -> err -> Prop :=
| Rf_etag kv : refusal ls (EAddTag kv) EActive
| Rf_eseg id local tags : refusal ls (EAddSegment id local tags) EActive
| Rf_otag n kv : refusal ls (OAddTag n kv) EActive
| Rf_oseg n id local tags : (forall l, local = Some l -> ~ In l ls) -> refusal ls (OAddSegment n id local tags) EActive
| Rf_dup n id l tags : In l ls -> refusal ls (OAddSegment n id (Some l) tags) EEncode
| Rf_auto n id tags : refusal ls (OAddSegment n id None tags) EEncode
| Rf_stag l kv : In l ls -> refusal ls (SAddTag l kv) EActive
| Rf_stag_none l kv : ~ In l ls -> refusal ls (SAddTag l kv) EKey
| Rf_sflow l fl : In l ls -> refusal ls (SAddFlow l fl) EActive
| Rf_sflow_none l fl : ~ In l ls -> refusal ls (SAddFlow l fl) EKey.
