(** Property theorems about grain objects that are written to files and made again: C53. *)
From Coq Require Import String.
From Verif Require Import Base GsfPrim GsfBlock GsfDecode CogEnums GsfEncode GsfSpec GsfFileSpec GsfEncState GsfEncSpec GsfEncFile GsfEncDecodeSpec
  PyValue Json GrainObj Event EventSpec GrainGsf GrainGsfSpec GrainGsfFileSpec GrainGsfFile GrainGsfStream GrainGsfExample.
Local Open Scope list_scope.

(** Every object that was written is made again, wherever the file came from and however it is read. *)
Theorem C53_objects : forall e c los lgs data k strict fwd, reads_as e c lgs data -> all_writable los lgs -> at_once k ->
  exists s l, decode_file k (mkFile data 0 strict fwd) = Ok (s, (l, s, Done)) /\
    Forall2 (fun lo i => i_local i = fst lo /\ comes_back (e_major e) data (snd lo) i) (asked (k_ids k) los) l.
Proof. exact objects_back. Qed.
Print Assumptions C53_objects.

Theorem C53_streaming : forall e async o c ops lgs los, streams e async o c -> (async = false -> from_encoder e) ->
  Forall (client_of async (length (e_sess e))) ops -> SentAll (e_major e) (keys_of e) (length (e_sess e)) ops lgs ->
  prior (e_out e) = [] -> head_fits e -> Forall (fun s => i64 (final_count (o_seek (e_out e)) lgs s)) (e_segs e) ->
  Forall (grain_fits (e_major e)) lgs -> waiting (e_segs e) = [] -> all_writable los lgs ->
  forall k strict fwd, at_once k ->
  let data := GsfEncState.o_data (e_out (run_ops e (o :: ops ++ [c]))) in
  exists s l, decode_file k (mkFile data 0 strict fwd) = Ok (s, (l, s, Done)) /\
    Forall2 (fun lo i => i_local i = fst lo /\ comes_back (e_major e) data (snd lo) i) (asked (k_ids k) los) l.
Proof. exact objects_streamed. Qed.
Print Assumptions C53_streaming.

Theorem C53_dumps : forall os gs seg_id stags major minor id created,
  (major = 7 \/ major = 8 \/ major = 9) -> u16 minor -> uuid_ok id -> dt_valid created = true ->
  uuid_ok seg_id -> Forall tag_fits stags -> i64 (zlen gs) ->
  zlen (enc_head id created [(mkESeg 1 seg_id None stags, 0)] []) < 4294967296 ->
  Forall (grain_fits major) (map (pair 1) gs) -> Forall2 writable os gs ->
  exists data, GsfEncState.dumps gs seg_id stags major minor id created false = Ok data /\
    forall k strict fwd, at_once k -> k_ids k = None ->
    exists s l, decode_file k (mkFile data 0 strict fwd) = Ok (s, (l, s, Done)) /\ Forall2 (comes_back major data) os l.
Proof. exact objects_dumped. Qed.
Print Assumptions C53_dumps.

(** A coded video grain and an event with two entries can be written; what is lost is lost. *)
Example C53_writable_ex : all_writable [(1, ob_coded); (1, ob_event)] [(1, ob_grain ob_coded); (1, ob_grain ob_event)].
Proof. constructor; [split; [reflexivity|exact ob_coded_writable]|]. constructor; [split; [reflexivity|exact ob_event_writable]|constructor]. Qed.
Example C53_objects_ex :
  match ob_back false with
  | [Ok v; Ok c; Ok e; Ok n] =>
      get_data v = get_data ob_video /\ getattr v $"width" = Ok (PInt 4) /\ getattr c $"is_key_frame" = Ok (PBool true) /\ offsets c = Ok [PInt 0; PInt 2] /\
      getattr ob_video $"creation_timestamp" = Ok (PTime 900) /\ getattr v $"creation_timestamp" = Ok (PTime 77) /\
      labels c = Ok [[($"tag", PStr $"tc"); ($"timelabel", PDict [($"frames_since_midnight", PInt 90); ($"frame_rate_numerator", PInt 25); ($"frame_rate_denominator", PInt 1); ($"drop_frame", PBool false)])]] /\
      event_entries e = Ok [PDict [($"path", PStr $"/x")]; PDict [($"path", PStr $"/y"); ($"pre", PBool false); ($"post", PList [PNone])]] /\
      getattr e $"topic" = Ok (PStr [233; 0x1F600]) /\ get_data n = Ok None
  | _ => False
  end.
Proof. vm_compute. repeat split. Qed.

(** Deferred payloads: the length is known at once, everything else survives once the payload was waited for; events cannot be made. *)
Theorem C53_deferred : forall e c los lgs data k strict fwd, reads_as e c lgs data -> all_writable los lgs -> deferred k ->
  exists s l, decode_file k (mkFile data 0 strict fwd) = Ok (s, (l, s, Done)) /\
    Forall2 (fun lo i => i_local i = fst lo /\
      match o_class (snd lo) with KEvent => forall now, item_object now data i = Err EAttr | _ => comes_back_later (e_major e) data (snd lo) i end) (asked (k_ids k) los) l.
Proof. exact objects_later. Qed.
Print Assumptions C53_deferred.
Example C53_deferred_ex :
  match ob_items true, ob_back true with
  | [iv; _; _; _], [Ok v; Ok c; Err EAttr; Ok n] => get_data v = Ok None /\ getattr v $"length" = Ok (PInt 16) /\ get_data (awaited ob_file iv v) = get_data ob_video
  | _, _ => False
  end.
Proof. vm_compute. repeat split. Qed.

(** Deferring the payload of any event stops the reading. *)
Theorem C53_deferred_events_refuted : forall major o g data i pos len x now, of_own_type o -> read_grain o = Ok g -> o_class o = KEvent ->
  i_meta i = meta_of major g -> i_data i = PLazy pos len x -> item_object now data i = Err EAttr.
Proof. exact event_never. Qed.
Print Assumptions C53_deferred_events_refuted.
Example C53_deferred_events_ex : item_object 77 [] (mkItem (meta_of 8 (ob_grain ob_event)) (PLazy 0 5 true) 1) = Err EAttr.
Proof. vm_compute. reflexivity. Qed.

(** The type can be assigned; a grain of a type that is not one of the six is never written. *)
Theorem C53_unknown : forall o v, getattr o $"grain_type" = Ok v ->
  (forall t, In t [$"video"; $"coded_video"; $"audio"; $"coded_audio"; $"event"; $"empty"] -> v <> PStr t) -> exists x, read_grain o = Err x.
Proof. exact unknown_type. Qed.
Print Assumptions C53_unknown.
Example C53_unknown_ex : match GrainFactory 5 [($"grain", PDict [($"grain_type", PStr $"sound")])] (ABytes [1; 2]) with
  | Ok o => getattr o $"grain_type" = Ok (PStr $"sound") /\ read_grain o = Err EEncode | Err _ => False end.
Proof. vm_compute. auto. Qed.
