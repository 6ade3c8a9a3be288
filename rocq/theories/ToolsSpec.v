(** What the tools should do: the essence of a file made of an input is the input. *)
From Coq Require Import String.
From Verif Require Import Base GsfPrim GsfDecode GsfEncode PatternTime PatternSpec PyValue GrainObj GrainSetSpec GrainTime.
Local Open Scope list_scope.

(** A grain like the template but for its time and its payload. *)
Record stamped (t o : gobj) (time : Z) (data : bytes) : Prop := {
  sp_class : o_class o = o_class t;
  sp_same : forall m, dget m (sorts (o_class t)) <> None -> m <> $"origin_timestamp" -> getattr o m = getattr t m;
  sp_time : getattr o $"origin_timestamp" = Ok (PTime time);
  sp_data : get_data o = Ok (Some data) /\ o_wait o = None;
  sp_labels : labels o = labels t;
  sp_components : o_class t = KVideo -> in_section $"cog_frame" $"components" o = in_section $"cog_frame" $"components" t;
  sp_offsets : o_class t = KCodedVideo -> offsets o = offsets t }.

(** The payload of a grain that has one. *)
Definition has_payload (o : gobj) (b : bytes) : Prop := get_data o = Ok (Some b) /\ o_class o <> KEvent /\ (o_class o = KGrain -> b <> []).

(** The pieces as grains, one after the other from count [c] on. *)
Definition in_grains (k : clock) (r : rate) (c : Z) (t : gobj) (bs : list bytes) (os : list gobj) : Prop :=
  List.length os = List.length bs /\
  forall i o b, nth_error os i = Some o -> nth_error bs i = Some b -> stamped t o (grid k r (c + Z.of_nat i)) b.
(** [d] in pieces of [n] bytes, the last of which may be shorter. *)
Definition pieces (n : Z) (d : bytes) (bs : list bytes) : Prop :=
  concat bs = d /\ forall i b, nth_error bs i = Some b -> zlen b = Z.min n (zlen d - Z.of_nat i * n) /\ 0 < zlen b.

(** Of a list of things with numbers, those with a given number, in order. *)
Definition numbered {A} (n : A -> Z) (l : Z) (xs : list A) : list A := filter (fun x => n x =? l) xs.
(** What the table of a probed file should say: for every segment its grains, in order. *)
Definition last_with (l : Z) (segs : list segm) : option segm := find (fun s => sg_local s =? l) (rev segs).
(** What there is to say about a grain of a file: its segment's number, its metadata, its timestamps and its time range. *)
Definition said : Type := Z * pv * (pv * pv * pv) * span.
Definition said_id (x : said) : Z := fst (fst (fst x)).
Definition said_meta (x : said) : pv := snd (fst (fst x)).
Definition said_times (x : said) : pv * pv * pv := snd (fst x).
Definition said_range (x : said) : span := snd x.
(** One range for all of these; GrainTimeMain.v says that it is the smallest. *)
Definition joined (ss : list span) : option span := match ss with [] => None | s :: ss => Some (fold_left extended ss s) end.
(** Audio with a positive sample rate, or anything else: the grains that have a time range. *)
Definition timed (o : gobj) : Prop :=
  o_class o = KAudio \/ o_class o = KCodedAudio -> (exists n, getattr o $"samples" = Ok (PInt n)) /\ exists r, getattr o $"sample_rate" = Ok (PInt r) /\ 0 < r.
(** The timestamps of a grain of a file made of object [o], read at time [now]. *)
Definition times_kept (major now : Z) (o : gobj) (x : pv * pv * pv) : Prop :=
  exists a b, getattr o $"origin_timestamp" = Ok (PTime a) /\ getattr o $"sync_timestamp" = Ok (PTime b) /\
    x = (PTime (if major =? 7 then Z.abs a else a), PTime (if major =? 7 then Z.abs b else b), PTime now).
