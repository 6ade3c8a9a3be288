(** C50: constructing grains. *)
From Coq Require Import String.
From Verif Require Import Base PyValue CogEnums VideoLayout GrainObj BuildSpec BuildMain BuildKw BuildExample.
Local Open Scope list_scope.

(** Everything about the dictionary, key by key ([built] in BuildSpec.v), and the payload. An event grain given bytes is C48. *)
Theorem C50_built c now m a o : not_bytes c a -> init c now m a = Ok o -> built c now m (o_meta o) /\ o = mk c (o_meta o) a.
Proof. exact (init_built c now m a o). Qed.
Print Assumptions C50_built.
Example C50_built_ex : match GrainFactory 99 ex_partial ANone with Ok o => (o_class o, o_data o, o_meta o) | Err _ => (KGrain, None, []) end =
  (KAudio, Some [], [($"extra", PInt 3);
   ($"grain", PDict [($"grain_type", PStr $"audio"); ($"creation_timestamp", PTimeStr 7); ($"rate", PDict [($"numerator", PInt 25); ($"denominator", PInt 1)]); ($"note", PStr $"x");
                     ($"cog_audio", PDict [($"format", PInt 2); ($"channels", PInt 1); ($"samples", PInt 0); ($"sample_rate", PInt 0)]);
                     ($"origin_timestamp", PTimeStr 7); ($"sync_timestamp", PTimeStr 7); ($"duration", PDict [($"numerator", PInt 0); ($"denominator", PInt 1)]);
                     ($"source_id", PUuidStr 0); ($"flow_id", PUuidStr 0)]);
   ($"@_ns", PStr $"urn:x-ipstudio:ns:0.1")]).
Proof. vm_compute. reflexivity. Qed.

(** Supplied fields are kept (objects as text). *)
Theorem C50_keeps c now m a o k v : not_bytes c a -> init c now m a = Ok o -> (c = KGrain \/ (k <> part_name c /\ k <> $"grain_type")) ->
  dget k (fields m) = Some v -> dget k (fields (o_meta o)) = Some (plain k v).
Proof. exact (keeps c now m a o k v). Qed.
Print Assumptions C50_keeps.
Theorem C50_keeps_part c now m a o k f v : not_bytes c a -> init c now m a = Ok o -> c <> KGrain -> dget (part_name c) (fields m) = Some (PDict f) ->
  dget k f = Some v -> in_section (part_name c) k o = Ok (part_plain c k v).
Proof. exact (keeps_part c now m a o k f v). Qed.
Print Assumptions C50_keeps_part.
(** The standard fields are all there, and nothing else is added. *)
Theorem C50_complete c now m a o k : not_bytes c a -> init c now m a = Ok o -> In k (map fst (standard 0 [])) -> dget k (fields (o_meta o)) <> None.
Proof. exact (complete c now m a o k). Qed.
Print Assumptions C50_complete.
Theorem C50_nothing_else c now m a o k : not_bytes c a -> init c now m a = Ok o -> dget k (fields m) = None ->
  ~ In k (map fst (standard 0 [])) -> (c = KGrain \/ k <> part_name c) -> dget k (fields (o_meta o)) = None.
Proof. exact (nothing_else c now m a o k). Qed.
Print Assumptions C50_nothing_else.
Example C50_keeps_ex : let g := fields (ex_meta (init KAudio 99 ex_partial ANone)) in
  dget $"note" g = Some (PStr $"x") /\ dget $"rate" g = Some (PDict [($"numerator", PInt 25); ($"denominator", PInt 1)]) /\
  dget $"sync_timestamp" g = Some (PTimeStr 7) /\ dget $"timelabels" g = None.
Proof. vm_compute. repeat split. Qed.

(** Constructing it again changes nothing, whatever the time. *)
Theorem C50_again c now now' m a a' o : not_bytes c a -> not_bytes c a' -> init c now m a = Ok o -> init c now' (o_meta o) a' = Ok (mk c (o_meta o) a').
Proof. exact (init_again c now now' m a a' o). Qed.
Print Assumptions C50_again.
Theorem C50_factory_again now now' m a o : not_bytes (o_class o) a -> GrainFactory now m a = Ok o -> GrainFactory now' (o_meta o) (own_payload o) = Ok o.
Proof. exact (factory_again now now' m a o). Qed.
Print Assumptions C50_factory_again.
Theorem C50_factory now m a o : not_bytes (o_class o) a -> GrainFactory now m a = Ok o -> class_for m = Ok (o_class o) /\ built (o_class o) now m (o_meta o).
Proof. exact (factory_built now m a o). Qed.
Print Assumptions C50_factory.
Example C50_again_ex : exists o, GrainFactory 99 ex_partial ANone = Ok o /\ GrainFactory 1234 (o_meta o) (own_payload o) = Ok o /\
  exists o', GrainFactory 1234 [] AWait = Ok o' /\ o_wait o' = Some 0 /\ GrainFactory 5 (o_meta o') (own_payload o') = Ok o'.
Proof. eexists. split; [vm_compute; reflexivity|]. split; [vm_compute; reflexivity|]. eexists. split; [vm_compute; reflexivity|]. split; vm_compute; reflexivity. Qed.

(** It succeeds exactly if what is supplied has the right shape. *)
Theorem C50_total c now m a : not_bytes c a -> (exists o, init c now m a = Ok o) <-> can_build c now m.
Proof. exact (init_total c now m a). Qed.
Print Assumptions C50_total.
Example C50_total_ex : init KVideo 99 [] ANone = Err EKey /\ is_ok (init KAudio 99 [] ANone) = true /\
  init KVideo 99 [($"grain", PDict [($"cog_frame", PDict [($"width", PInt 16)])])] ANone = Err EKey /\
  is_ok (init KVideo 99 [($"grain", PDict [($"cog_frame", PDict [($"format", PInt 0x2000); ($"layout", PInt 0)])])] ANone) = true /\
  init KGrain 99 [($"grain", PDict [($"sync_timestamp", PInt 5)])] ANone = Err EValue.
Proof. vm_compute. repeat split. Qed.

(** With keyword arguments the attributes are the arguments. *)
Theorem C50_video now k fmt w h layout a o : kw_video now k fmt w h layout a = Ok o ->
  common_are k now $"video" o /\ payload_is o a (size_for_format fmt w h) /\ attr_is o $"width" (PInt w) /\ attr_is o $"height" (PInt h) /\
  (member frame_formats fmt = true -> attr_is o $"cog_frame_format" (PInt fmt)) /\ (member frame_layouts layout = true -> attr_is o $"cog_frame_layout" (PInt layout)) /\
  in_section $"cog_frame" $"components" o = Ok (PList (map comp_dict (components_for_format fmt w h))).
Proof. exact (video_kw now k fmt w h layout a o). Qed.
Print Assumptions C50_video.
Theorem C50_video_total now k fmt w h layout a : (exists o, kw_video now k fmt w h layout a = Ok o) <-> (a = ANone -> 0 <= size_for_format fmt w h).
Proof. exact (video_kw_total now k fmt w h layout a). Qed.
Print Assumptions C50_video_total.
Theorem C50_coded_video now k fmt ow oh cw ch key temporal len layout offs a o : kw_coded_video now k fmt ow oh cw ch key temporal len layout offs a = Ok o ->
  common_are k now $"coded_video" o /\ payload_is o a (or_else len 0) /\ attr_is o $"origin_width" (PInt ow) /\ attr_is o $"origin_height" (PInt oh) /\
  attr_is o $"coded_width" (PInt (or_else cw ow)) /\ attr_is o $"coded_height" (PInt (or_else ch oh)) /\
  attr_is o $"is_key_frame" (or_else (option_map PBool key) PNone) /\ attr_is o $"temporal_offset" (or_else (option_map PInt temporal) PNone) /\
  offsets o = Ok (map PInt (or_else offs [])) /\
  (member frame_formats fmt = true -> attr_is o $"cog_frame_format" (PInt fmt)) /\ (member frame_layouts layout = true -> attr_is o $"cog_frame_layout" (PInt layout)).
Proof. exact (coded_video_kw now k fmt ow oh cw ch key temporal len layout offs a o). Qed.
Print Assumptions C50_coded_video.
Theorem C50_audio now k fmt samples channels rate a o : kw_audio now k fmt samples channels rate a = Ok o ->
  common_are k now $"audio" o /\ payload_is o a (size_for_audio_format fmt channels samples) /\ attr_is o $"samples" (PInt samples) /\ attr_is o $"channels" (PInt channels) /\
  attr_is o $"sample_rate" (PInt rate) /\ (member audio_formats fmt = true -> attr_is o $"cog_audio_format" (PInt fmt)).
Proof. exact (audio_kw now k fmt samples channels rate a o). Qed.
Print Assumptions C50_audio.
Theorem C50_audio_total now k fmt samples channels rate a : (exists o, kw_audio now k fmt samples channels rate a = Ok o) <-> (a = ANone -> 0 <= size_for_audio_format fmt channels samples).
Proof. exact (audio_kw_total now k fmt samples channels rate a). Qed.
Print Assumptions C50_audio_total.
Theorem C50_coded_audio now k fmt samples channels priming remainder rate len a o : kw_coded_audio now k fmt samples channels priming remainder rate len a = Ok o ->
  common_are k now $"coded_audio" o /\ payload_is o a (or_else len 0) /\ attr_is o $"samples" (PInt samples) /\ attr_is o $"channels" (PInt channels) /\
  attr_is o $"sample_rate" (PInt rate) /\ attr_is o $"priming" (PInt priming) /\ attr_is o $"remainder" (PInt remainder) /\
  (member audio_formats fmt = true -> attr_is o $"cog_audio_format" (PInt fmt)).
Proof. exact (coded_audio_kw now k fmt samples channels priming remainder rate len a o). Qed.
Print Assumptions C50_coded_audio.
Theorem C50_event now k kind topic a o : not_bytes KEvent a -> kw_event now k kind topic a = Ok o ->
  common_are k now $"event" o /\ attr_is o $"event_type" (PStr kind) /\ attr_is o $"topic" (PStr topic) /\ event_entries o = Ok [].
Proof. exact (event_kw now k kind topic a o). Qed.
Print Assumptions C50_event.
(** The factory without metadata: an empty grain, and the payload given is dropped. *)
Theorem C50_empty now k a o : kw_factory now k a = Ok o -> (exists s f, k_src k = Some s /\ k_flow k = Some f) /\ common_are k now $"empty" o /\ get_data o = Ok None.
Proof. exact (empty_kw now k a o). Qed.
Print Assumptions C50_empty.
Example C50_kw_ex : exists o, kw_video 5 ex_full_kw 0x2000 4 2 0 ANone = Ok o /\ getattr o $"width" = Ok (PInt 4) /\ getattr o $"rate" = Ok (PFrac 25 1) /\
  getattr o $"sync_timestamp" = Ok (PTime 1000) /\ getattr o $"length" = Ok (PInt 24) /\
  exists o', kw_coded_video 5 ex_full_kw 0x200 16 8 None (Some 16) None (Some 2) (Some 3) 0 (Some [1; 2]) ANone = Ok o' /\ getattr o' $"coded_width" = Ok (PInt 16) /\
    getattr o' $"is_key_frame" = Ok PNone /\ getattr o' $"length" = Ok (PInt 3) /\ offsets o' = Ok [PInt 1; PInt 2].
Proof. eexists. split; [vm_compute; reflexivity|]. do 4 (split; [vm_compute; reflexivity|]). eexists. split; [vm_compute; reflexivity|]. repeat split; vm_compute; reflexivity. Qed.

(** Identifiers left out become the text None, and reading the attribute raises. *)
Theorem C50_none_refuted : exists k o, kw_audio 5 k 2 1 1 48000 ANone = Ok o /\ getattr o $"src_id" = Err EValue /\ getattr o $"flow_id" = Err EValue.
Proof. exists (mkKw None None None None None (0, 1) (1, 25)). eexists. split; [vm_compute; reflexivity|]. split; vm_compute; reflexivity. Qed.
Print Assumptions C50_none_refuted.
