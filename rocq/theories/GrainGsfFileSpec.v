(** Grain objects that can be written, and the items of a decoded file that are theirs. *)
From Coq Require Import String.
From Verif Require Import Base GsfPrim GsfDecode CogEnums GsfEncode GsfSpec GsfFileSpec PyValue Json GrainObj EventSpec GrainGsf GrainGsfSpec.
Local Open Scope list_scope.

(** Events that JSON can carry and the setter accepts. *)
Definition good_event (o : gobj) (p : EventSpec.payload) : Prop :=
  shows o p /\ payload_json_ok p /\ Forall (fun e : entry => e $"path" <> None) (p_entries p).
(** The encoder reads [g] from the grain; it fits the format. *)
Definition writable (o : gobj) (g : grain) : Prop :=
  of_own_type o /\ read_grain o = Ok g /\ grain_ok g /\ (o_class o = KEvent -> exists p, good_event o p).

(** The object that is made of item [i] whenever it is made. *)
Definition comes_back (major : Z) (data : bytes) (o : gobj) (i : item) : Prop :=
  forall now, exists o', item_object now data i = Ok o' /\ survives major now o o' /\
    (o_class o = KEvent -> forall p, good_event o p -> event_survives o o' p) /\
    (* it can be written again, and what then comes back is the same *)
    exists g', writable o' g' /\
      forall now' data' i', i_meta i' = meta_of major g' -> loaded data' (i_data i') = opt_bytes (g_data g') -> payload_arg data' (i_data i') <> AWait ->
        (i_data i' = GsfDecode.PNone <-> opt_bytes (g_data g') = []) ->
        exists o'', item_object now' data' i' = Ok o'' /\ only_created o' o'' /\ read_grain o'' = Ok g'.
(** With deferred loading: the length is known at once, the rest when the payload has been waited for. *)
Definition comes_back_later (major : Z) (data : bytes) (o : gobj) (i : item) : Prop :=
  forall now, exists o', item_object now data i = Ok o' /\ getattr o' $"length" = getattr o $"length" /\
    (opt_bytes (o_data o) <> [] -> get_data o' = Ok None) /\ survives major now o (awaited data i o').

(** ** Loading payloads at once, or when they are waited for. *)
Definition at_once (k : cfg) : Prop := k_mode k = LoadImmediately \/ (k_mode k <> LoadNever /\ (k_back k = false \/ k_lazy k = false)).
Definition deferred (k : cfg) : Prop := (k_mode k = LoadDefer \/ k_mode k = DeferLoad) /\ k_back k = true /\ k_lazy k = true.
(** The objects of the segments asked for. *)
Definition asked (ids : option (list Z)) (los : list (Z * gobj)) : list (Z * gobj) := filter (fun lo => in_ids ids (fst lo)) los.
(** The objects and the grains that the encoder reads from them, segment by segment. *)
Definition all_writable (los : list (Z * gobj)) (lgs : list (Z * grain)) : Prop :=
  Forall2 (fun lo lg => fst lo = fst lg /\ writable (snd lo) (snd lg)) los lgs.
