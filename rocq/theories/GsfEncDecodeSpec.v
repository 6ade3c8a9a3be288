(** Specification of what a reader should see in a file written by the encoder. *)
From Verif Require Import Base Utf8 GsfPrim GsfBlock GsfDecode CogEnums GsfEncode GsfSpec GsfFileSpec GsfEncState GsfEncSpec.

(** Segments whose fields fit their encodings. *)
Definition seg_fits (s : eseg) : Prop :=
  u16 (es_local s) /\ uuid_ok (es_id s) /\ Forall tag_fits (es_tags s) /\
  match es_flow s with None => True | Some x => exists text, flow_fits x text end.

(** The fields of the encoder fit their encodings and the head block's size fits its field. *)
Definition head_fits (e : enc) : Prop :=
  (e_major e = 7 \/ e_major e = 8 \/ e_major e = 9) /\ u16 (e_minor e) /\ uuid_ok (e_id e) /\
  dt_valid (e_created e) = true /\ Forall tag_fits (e_tags e) /\ Forall (fun s => seg_fits (st_e s)) (e_segs e) /\
  zlen (enc_head (e_id e) (e_created e) (with_counts (fun _ => 0) (e_segs e)) (e_tags e)) < 4294967296.

(** The fields of a grain fit their encodings and its block's size fits its field. *)
Definition grain_fits (major : Z) (lg : Z * grain) : Prop :=
  u16 (fst lg) /\ grain_ok (snd lg) /\ zlen (gbytes major lg) < 4294967296.

(** A segment as seen by a reader. *)
Definition seg_seen (sc : eseg * Z) (s : segm) : Prop :=
  sg_local s = es_local (fst sc) /\ sg_id s = es_id (fst sc) /\ sg_count s = snd sc /\
  sg_tags s = es_tags (fst sc) /\ FlowOf (es_flow (fst sc)) (sg_flow s).

(** A grain as seen by a reader. *)
Definition grain_seen (major : Z) (lg : Z * grain) : shown := (meta_of major (snd lg), opt_bytes (g_data (snd lg)), fst lg).

(** [reads_as e c gs data]: whatever the loading mode and kind of input, reading [data] gives the header of [e] with
    segment counts [c], and then exactly the grains [gs], and ends normally. *)
Definition reads_as (e : enc) (c : segst -> Z) (gs : list (Z * grain)) (data : bytes) : Prop :=
  exists segms, Forall2 seg_seen (with_counts c (e_segs e)) segms /\
    forall k strict fwd,
    let s := mkSess (e_major e) (e_minor e) (Some (mkHead (e_id e) (e_created e) segms (e_tags e))) in
    decodes_to k strict fwd data s s
      (map (mode_data (k_mode k)) (select (k_ids k) (map (grain_seen (e_major e)) gs))).
