(** The grain objects made of the decoder's dictionaries, written out. *)
From Coq Require Import String Lia ZifyBool ZifyNat.
From Verif Require Import Base BaseProofs GsfPrim GsfPrimProofs GsfDecode CogEnums GsfEncode GsfSpec GsfFileSpec PyValue PyValueProofs Json JsonProofs GrainObj BuildKw GrainGsf GrainGsfSpec.
Local Open Scope list_scope.

(** [part] is given in the metadata, [late] is added at the end. *)
Definition made (now : Z) (m : gmeta) (kind : str) (part late : dict) : dict :=
  [($"grain", PDict (
     [($"source_id", PUuidStr (uuid_value (m_src m))); ($"flow_id", PUuidStr (uuid_value (m_flow m)));
      ($"origin_timestamp", PTimeStr (m_origin m)); ($"sync_timestamp", PTimeStr (m_sync m)); ($"rate", ratio_pv (m_rate m)); ($"duration", ratio_pv (m_dur m))] ++
     opt_entry $"timelabels" (fun l => PList (map (fun t => PDict (til_dict t)) l)) (m_tils m) ++ [($"grain_type", PStr kind)] ++ part ++
     [($"creation_timestamp", PTimeStr now)] ++ late));
   ($"@_ns", PStr $"urn:x-ipstudio:ns:0.1")].
Definition data_of (a : darg) : option bytes := match a with ABytes b => Some b | _ => None end.
Definition data_or_empty (a : darg) : option bytes := match a with ABytes b => Some b | AWait => None | ANone => Some [] end.
Definition wait_of (a : darg) : option Z := match a with AWait => Some 0 | _ => None end.

Lemma made_empty now s f t y r d tils a :
  GrainFactory now (meta_dict (mkMeta s f t y r d tils TEmpty None None None None)) a =
  Ok (mkO KGrain (made now (mkMeta s f t y r d tils TEmpty None None None None) $"empty" [] []) (data_of a) (wait_of a)).
Proof. destruct tils, a; vm_compute; reflexivity. Qed.
Lemma made_video now s f t y r d tils v a :
  GrainFactory now (meta_dict (mkMeta s f t y r d tils TVideo (Some v) None None None)) a =
  Ok (mkO KVideo (made now (mkMeta s f t y r d tils TVideo (Some v) None None None) $"video" [($"cog_frame", PDict (video_dict v))] []) (data_or_empty a) (wait_of a)).
Proof. destruct v as [v1 v2 v3 v4 v5 sar par [|c cs]]; destruct tils, sar, par, a; vm_compute; reflexivity. Qed.
Lemma made_coded now s f t y r d tils c a :
  GrainFactory now (meta_dict (mkMeta s f t y r d tils TCoded None (Some c) None None)) a =
  Ok (mkO KCodedVideo (made now (mkMeta s f t y r d tils TCoded None (Some c) None None) $"coded_video" [($"cog_coded_frame", PDict (coded_dict c ++ [($"length", PInt 0)]))] [])
        (data_or_empty a) (wait_of a)).
Proof. destruct c as [c1 c2 c3 c4 c5 c6 k o u]; destruct tils, k, o, u, a; vm_compute; reflexivity. Qed.
Lemma made_audio now s f t y r d tils x a :
  GrainFactory now (meta_dict (mkMeta s f t y r d tils TAudio None None (Some x) None)) a =
  Ok (mkO KAudio (made now (mkMeta s f t y r d tils TAudio None None (Some x) None) $"audio" [($"cog_audio", PDict (audio_dict x))] []) (data_or_empty a) (wait_of a)).
Proof. destruct tils, a; vm_compute; reflexivity. Qed.
Lemma made_coded_audio now s f t y r d tils x a :
  GrainFactory now (meta_dict (mkMeta s f t y r d tils TCAudio None None None (Some x))) a =
  Ok (mkO KCodedAudio (made now (mkMeta s f t y r d tils TCAudio None None None (Some x)) $"coded_audio" [($"cog_coded_audio", PDict (coded_audio_dict x))] []) (data_or_empty a) (wait_of a)).
Proof. destruct tils, a; vm_compute; reflexivity. Qed.

(** ** The attributes of such objects. *)
Definition own_part (c : gclass) (v : pv) : dict := match c with KGrain | KEvent => [] | _ => [(BuildSpec.part_name c, v)] end.
Definition own_late (c : gclass) (v : pv) : dict := match c with KEvent => [(BuildSpec.part_name c, v)] | _ => [] end.
Definition made_obj (c : gclass) (now : Z) (m : gmeta) (v : pv) (d : option bytes) (w : option Z) : gobj := mkO c (made now m (own_type c) (own_part c v) (own_late c v)) d w.

Record common_made (now : Z) (m : gmeta) (o : gobj) : Prop := {
  cm_type : getattr o $"grain_type" = Ok (PStr (own_type (o_class o)));
  cm_source : getattr o $"source_id" = Ok (PUuid (uuid_value (m_src m)));
  cm_src : getattr o $"src_id" = Ok (PUuid (uuid_value (m_src m)));
  cm_flow : getattr o $"flow_id" = Ok (PUuid (uuid_value (m_flow m)));
  cm_origin : getattr o $"origin_timestamp" = Ok (PTime (m_origin m));
  cm_sync : getattr o $"sync_timestamp" = Ok (PTime (m_sync m));
  cm_creation : getattr o $"creation_timestamp" = Ok (PTime now);
  cm_rate : rat_ok (m_rate m) -> getattr o $"rate" = Ok (frac_pv (m_rate m));
  cm_duration : rat_ok (m_dur m) -> getattr o $"duration" = Ok (frac_pv (m_dur m));
  cm_labels : labels o = Ok (map til_dict (match m_tils m with Some l => l | None => [] end)) }.

Lemma fill_til t : fill_label (til_dict t) = Ok (til_dict t).
Proof. vm_compute. reflexivity. Qed.
Lemma fill_tils l : map_res (fun v => rbind (as_dict v) fill_label) (map (fun t => PDict (til_dict t)) l) = Ok (map til_dict l).
Proof. induction l as [|t l IH]; [reflexivity|]. cbn [map map_res as_dict rbind]. rewrite fill_til. cbn [rbind]. rewrite IH. reflexivity. Qed.
Lemma read_til t : read_label (til_dict t) = Ok t.
Proof. destruct t as [a b c d [|]]; vm_compute; reflexivity. Qed.
Lemma read_tils l : map_res read_label (map til_dict l) = Ok l.
Proof. induction l as [|t l IH]; [reflexivity|]. cbn [map map_res]. rewrite read_til. cbn [rbind]. rewrite IH. reflexivity. Qed.

Lemma rate_attr o : getattr o $"rate" = rbind (field $"rate" o) to_frac.
Proof. unfold getattr. replace (dget $"rate" _) with (Some (fun o => rbind (field $"rate" o) to_frac)) by (destruct (o_class o); reflexivity). reflexivity. Qed.
Lemma duration_attr o : getattr o $"duration" = rbind (field $"duration" o) to_frac.
Proof. unfold getattr. replace (dget $"duration" _) with (Some (fun o => rbind (field $"duration" o) to_frac)) by (destruct (o_class o); reflexivity). reflexivity. Qed.
Lemma ratio_frac r : rat_ok r -> to_frac (ratio_pv r) = Ok (frac_pv r).
Proof. intros [D G]. exact (frac_lowest _ _ D G). Qed.
Lemma made_common c now m v d w : common_made now m (made_obj c now m v d w).
Proof.
  assert (L : labels (made_obj c now m v d w) =
    match m_tils m with None => Ok [] | Some l => map_res (fun v => rbind (as_dict v) fill_label) (map (fun t => PDict (til_dict t)) l) end).
  { destruct m as [s f t y r dr [tils|] ty v1 v2 v3 v4], c; vm_compute; reflexivity. }
  constructor; try (destruct m as [s f t y r dr [tils|] ty v1 v2 v3 v4], c; vm_compute; reflexivity).
  - intros [D G]. rewrite rate_attr. replace (field $"rate" (made_obj c now m v d w)) with (Ok (ratio_pv (m_rate m)))
      by (destruct m as [s f t y r dr [tils|] ty v1 v2 v3 v4], c; vm_compute; reflexivity). exact (ratio_frac _ (conj D G)).
  - intros [D G]. rewrite duration_attr. replace (field $"duration" (made_obj c now m v d w)) with (Ok (ratio_pv (m_dur m)))
      by (destruct m as [s f t y r dr [tils|] ty v1 v2 v3 v4], c; vm_compute; reflexivity). exact (ratio_frac _ (conj D G)).
  - rewrite L. destruct (m_tils m) as [l|]; [apply fill_tils|reflexivity].
Qed.

(** ** The part for the class. *)
Lemma part_field c now m v d w : c <> KGrain -> field (BuildSpec.part_name c) (made_obj c now m v d w) = Ok v.
Proof. intros N. destruct m as [s f t y r dr [tils|] ty v1 v2 v3 v4], c; try (destruct N; reflexivity); vm_compute; reflexivity. Qed.
Lemma part_item c now m f d w k : c <> KGrain -> in_section (BuildSpec.part_name c) k (made_obj c now m (PDict f) d w) = ditem k f.
Proof. intros N. unfold in_section. rewrite part_field by exact N. reflexivity. Qed.
Lemma part_maybe c now m f d w k : c <> KGrain -> maybe (BuildSpec.part_name c) k (made_obj c now m (PDict f) d w) = Ok (or_none (dget k f)).
Proof. intros N. unfold maybe. rewrite part_field by exact N. reflexivity. Qed.
Lemma part_maybe_frac c now m f d w k : c <> KGrain -> maybe_frac (BuildSpec.part_name c) k (made_obj c now m (PDict f) d w) = match dget k f with Some v => to_frac v | None => Ok PNone end.
Proof. intros N. unfold maybe_frac. rewrite part_field by exact N. reflexivity. Qed.

Definition ratio_or_none (r : option rat) : pv := match r with Some x => frac_pv x | None => PNone end.
Lemma video_dict_item v : dget $"format" (video_dict v) = Some (PInt (v_format v)) /\ dget $"layout" (video_dict v) = Some (PInt (v_layout v)) /\
  dget $"width" (video_dict v) = Some (PInt (v_width v)) /\ dget $"height" (video_dict v) = Some (PInt (v_height v)) /\ dget $"extension" (video_dict v) = Some (PInt (v_ext v)) /\
  dget $"source_aspect_ratio" (video_dict v) = option_map ratio_pv (v_sar v) /\ dget $"pixel_aspect_ratio" (video_dict v) = option_map ratio_pv (v_par v) /\
  dget $"components" (video_dict v) = Some (PList (map comp_pv (v_comps v))).
Proof. destruct v as [v1 v2 v3 v4 v5 [sar|] [par|] cs]; repeat split. Qed.
Record video_made (v : vmeta) (o : gobj) : Prop := {
  vm_format : forall n, In n [$"format"; $"cog_frame_format"] -> getattr o n = Ok (PInt (v_format v));
  vm_layout : forall n, In n [$"layout"; $"cog_frame_layout"] -> getattr o n = Ok (PInt (v_layout v));
  vm_width : getattr o $"width" = Ok (PInt (v_width v)); vm_height : getattr o $"height" = Ok (PInt (v_height v));
  vm_ext : getattr o $"extension" = Ok (PInt (v_ext v));
  vm_sar : getattr o $"source_aspect_ratio" = Ok (ratio_or_none (v_sar v)); vm_par : getattr o $"pixel_aspect_ratio" = Ok (ratio_or_none (v_par v));
  vm_comps : in_section $"cog_frame" $"components" o = Ok (PList (map comp_pv (v_comps v))) }.
Definition ratio_lowest (r : option rat) : Prop := match r with Some x => rat_ok x | None => True end.
Lemma made_frame now m v d w : member frame_formats (v_format v) = true -> member frame_layouts (v_layout v) = true -> ratio_lowest (v_sar v) -> ratio_lowest (v_par v) ->
  video_made v (made_obj KVideo now m (PDict (video_dict v)) d w).
Proof.
  intros F L S P. set (o := made_obj _ _ _ _ _ _). assert (I : forall k, in_section $"cog_frame" k o = ditem k (video_dict v)) by (intros k; apply (part_item KVideo); discriminate).
  assert (R : forall k, maybe_frac $"cog_frame" k o = match dget k (video_dict v) with Some v => to_frac v | None => Ok PNone end) by (intros k; apply (part_maybe_frac KVideo); discriminate).
  destruct (video_dict_item v) as (D1 & D2 & D3 & D4 & D5 & D6 & D7 & D8).
  constructor.
  - intros n H. assert (E : getattr o n = enum_attr $"cog_frame" $"format" frame_formats o) by (destruct H as [<-|[<-|[]]]; reflexivity).
    rewrite E. unfold enum_attr. rewrite I. unfold ditem. rewrite D1. cbn [rbind]. apply member_ok, F.
  - intros n H. assert (E : getattr o n = enum_attr $"cog_frame" $"layout" frame_layouts o) by (destruct H as [<-|[<-|[]]]; reflexivity).
    rewrite E. unfold enum_attr. rewrite I. unfold ditem. rewrite D2. cbn [rbind]. apply member_ok, L.
  - change (getattr o $"width") with (in_section $"cog_frame" $"width" o). rewrite I. unfold ditem. rewrite D3. reflexivity.
  - change (getattr o $"height") with (in_section $"cog_frame" $"height" o). rewrite I. unfold ditem. rewrite D4. reflexivity.
  - change (getattr o $"extension") with (in_section $"cog_frame" $"extension" o). rewrite I. unfold ditem. rewrite D5. reflexivity.
  - change (getattr o $"source_aspect_ratio") with (maybe_frac $"cog_frame" $"source_aspect_ratio" o). rewrite R, D6. destruct (v_sar v) as [x|]; [|reflexivity]. exact (ratio_frac x S).
  - change (getattr o $"pixel_aspect_ratio") with (maybe_frac $"cog_frame" $"pixel_aspect_ratio" o). rewrite R, D7. destruct (v_par v) as [x|]; [|reflexivity]. exact (ratio_frac x P).
  - rewrite I. unfold ditem. rewrite D8. reflexivity.
Qed.

Lemma coded_dict_item c x : dget $"format" (coded_dict c ++ [($"length", x)]) = Some (PInt (c_format c)) /\ dget $"layout" (coded_dict c ++ [($"length", x)]) = Some (PInt (c_layout c)) /\
  dget $"origin_width" (coded_dict c ++ [($"length", x)]) = Some (PInt (c_ow c)) /\ dget $"origin_height" (coded_dict c ++ [($"length", x)]) = Some (PInt (c_oh c)) /\
  dget $"coded_width" (coded_dict c ++ [($"length", x)]) = Some (PInt (c_cw c)) /\ dget $"coded_height" (coded_dict c ++ [($"length", x)]) = Some (PInt (c_ch c)) /\
  dget $"is_key_frame" (coded_dict c ++ [($"length", x)]) = option_map PBool (c_key c) /\ dget $"temporal_offset" (coded_dict c ++ [($"length", x)]) = option_map PInt (c_temporal c) /\
  dget $"unit_offsets" (coded_dict c ++ [($"length", x)]) = option_map (fun l => PList (map PInt l)) (c_units c) /\
  dget $"source_aspect_ratio" (coded_dict c ++ [($"length", x)]) = None /\ dget $"pixel_aspect_ratio" (coded_dict c ++ [($"length", x)]) = None.
Proof. destruct c as [c1 c2 c3 c4 c5 c6 [k|] [t|] [u|]]; repeat split. Qed.
Record coded_made (c : cmeta) (o : gobj) : Prop := {
  dm_format : forall n, In n [$"format"; $"cog_frame_format"] -> getattr o n = Ok (PInt (c_format c));
  dm_layout : forall n, In n [$"layout"; $"cog_frame_layout"] -> getattr o n = Ok (PInt (c_layout c));
  dm_ow : getattr o $"origin_width" = Ok (PInt (c_ow c)); dm_oh : getattr o $"origin_height" = Ok (PInt (c_oh c));
  dm_cw : getattr o $"coded_width" = Ok (PInt (c_cw c)); dm_ch : getattr o $"coded_height" = Ok (PInt (c_ch c));
  dm_key : getattr o $"is_key_frame" = Ok (or_none (option_map PBool (c_key c)));
  dm_temporal : getattr o $"temporal_offset" = Ok (or_none (option_map PInt (c_temporal c)));
  dm_units : offsets o = Ok (map PInt (units c));
  dm_ratios : forall n, In n ratio_names -> getattr o n = Ok PNone }.
Lemma made_coded_frame now m c d w : member frame_formats (c_format c) = true -> member frame_layouts (c_layout c) = true ->
  coded_made c (made_obj KCodedVideo now m (PDict (coded_dict c ++ [($"length", PInt 0)])) d w).
Proof.
  intros F L. set (o := made_obj _ _ _ _ _ _). set (f := coded_dict c ++ _) in *.
  assert (P : field $"cog_coded_frame" o = Ok (PDict f)) by (apply (part_field KCodedVideo); discriminate).
  assert (I : forall k, in_section $"cog_coded_frame" k o = ditem k f) by (intros k; apply (part_item KCodedVideo); discriminate).
  assert (M : forall k, maybe $"cog_coded_frame" k o = Ok (or_none (dget k f))) by (intros k; apply (part_maybe KCodedVideo); discriminate).
  assert (R : forall k, maybe_frac $"cog_coded_frame" k o = match dget k f with Some v => to_frac v | None => Ok PNone end) by (intros k; apply (part_maybe_frac KCodedVideo); discriminate).
  destruct (coded_dict_item c (PInt 0)) as (D1 & D2 & D3 & D4 & D5 & D6 & D7 & D8 & D9 & D10 & D11). fold f in D1, D2, D3, D4, D5, D6, D7, D8, D9, D10, D11.
  constructor.
  - intros n H. assert (E : getattr o n = enum_attr $"cog_coded_frame" $"format" frame_formats o) by (destruct H as [<-|[<-|[]]]; reflexivity).
    rewrite E. unfold enum_attr. rewrite I. unfold ditem. rewrite D1. cbn [rbind]. apply member_ok, F.
  - intros n H. assert (E : getattr o n = enum_attr $"cog_coded_frame" $"layout" frame_layouts o) by (destruct H as [<-|[<-|[]]]; reflexivity).
    rewrite E. unfold enum_attr. rewrite I. unfold ditem. rewrite D2. cbn [rbind]. apply member_ok, L.
  - change (getattr o $"origin_width") with (in_section $"cog_coded_frame" $"origin_width" o). rewrite I. unfold ditem. rewrite D3. reflexivity.
  - change (getattr o $"origin_height") with (in_section $"cog_coded_frame" $"origin_height" o). rewrite I. unfold ditem. rewrite D4. reflexivity.
  - change (getattr o $"coded_width") with (in_section $"cog_coded_frame" $"coded_width" o). rewrite I. unfold ditem. rewrite D5. reflexivity.
  - change (getattr o $"coded_height") with (in_section $"cog_coded_frame" $"coded_height" o). rewrite I. unfold ditem. rewrite D6. reflexivity.
  - change (getattr o $"is_key_frame") with (maybe $"cog_coded_frame" $"is_key_frame" o). rewrite M, D7. reflexivity.
  - change (getattr o $"temporal_offset") with (maybe $"cog_coded_frame" $"temporal_offset" o). rewrite M, D8. reflexivity.
  - unfold offsets. rewrite P. cbn [rbind as_dict]. rewrite D9. unfold units. destruct (c_units c); reflexivity.
  - intros n H. destruct H as [<-|[<-|[]]].
    + change (getattr o $"source_aspect_ratio") with (maybe_frac $"cog_coded_frame" $"source_aspect_ratio" o). rewrite R, D10. reflexivity.
    + change (getattr o $"pixel_aspect_ratio") with (maybe_frac $"cog_coded_frame" $"pixel_aspect_ratio" o). rewrite R, D11. reflexivity.
Qed.

Record audio_made (a : ameta) (o : gobj) : Prop := {
  am_format : forall n, In n [$"format"; $"cog_audio_format"] -> getattr o n = Ok (PInt (a_format a));
  am_samples : getattr o $"samples" = Ok (PInt (a_samples a)); am_channels : getattr o $"channels" = Ok (PInt (a_channels a));
  am_rate : getattr o $"sample_rate" = Ok (PInt (a_rate a)) }.
Lemma made_sound now m a d w : member audio_formats (a_format a) = true -> audio_made a (made_obj KAudio now m (PDict (audio_dict a)) d w).
Proof.
  intros F. set (o := made_obj _ _ _ _ _ _). assert (I : forall k, in_section $"cog_audio" k o = ditem k (audio_dict a)) by (intros k; apply (part_item KAudio); discriminate).
  constructor.
  - intros n H. assert (E : getattr o n = enum_attr $"cog_audio" $"format" audio_formats o) by (destruct H as [<-|[<-|[]]]; reflexivity).
    rewrite E. unfold enum_attr. rewrite I. exact (member_ok _ _ F).
  - change (getattr o $"samples") with (in_section $"cog_audio" $"samples" o). rewrite I. reflexivity.
  - change (getattr o $"channels") with (in_section $"cog_audio" $"channels" o). rewrite I. reflexivity.
  - change (getattr o $"sample_rate") with (in_section $"cog_audio" $"sample_rate" o). rewrite I. reflexivity.
Qed.
Record coded_audio_made (a : cameta) (o : gobj) : Prop := {
  bm_format : forall n, In n [$"format"; $"cog_audio_format"] -> getattr o n = Ok (PInt (ca_format a));
  bm_samples : getattr o $"samples" = Ok (PInt (ca_samples a)); bm_channels : getattr o $"channels" = Ok (PInt (ca_channels a));
  bm_rate : getattr o $"sample_rate" = Ok (PInt (ca_rate a)); bm_priming : getattr o $"priming" = Ok (PInt (ca_priming a));
  bm_remainder : getattr o $"remainder" = Ok (PInt (ca_remainder a)) }.
Lemma made_coded_sound now m a d w : member audio_formats (ca_format a) = true -> coded_audio_made a (made_obj KCodedAudio now m (PDict (coded_audio_dict a)) d w).
Proof.
  intros F. set (o := made_obj _ _ _ _ _ _). assert (I : forall k, in_section $"cog_coded_audio" k o = ditem k (coded_audio_dict a)) by (intros k; apply (part_item KCodedAudio); discriminate).
  constructor.
  - intros n H. assert (E : getattr o n = enum_attr $"cog_coded_audio" $"format" audio_formats o) by (destruct H as [<-|[<-|[]]]; reflexivity).
    rewrite E. unfold enum_attr. rewrite I. exact (member_ok _ _ F).
  - change (getattr o $"samples") with (in_section $"cog_coded_audio" $"samples" o). rewrite I. reflexivity.
  - change (getattr o $"channels") with (in_section $"cog_coded_audio" $"channels" o). rewrite I. reflexivity.
  - change (getattr o $"sample_rate") with (in_section $"cog_coded_audio" $"sample_rate" o). rewrite I. reflexivity.
  - change (getattr o $"priming") with (in_section $"cog_coded_audio" $"priming" o). rewrite I. reflexivity.
  - change (getattr o $"remainder") with (in_section $"cog_coded_audio" $"remainder" o). rewrite I. reflexivity.
Qed.
