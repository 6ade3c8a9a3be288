(** The GSF encoder's byte layout: /repo/mediagrains/gsf.py lines 1665-1702 and 2120-2448. *)
From Verif Require Import Base Utf8 GsfPrim GsfBlock GsfDecode CogEnums.

(** The type-specific part of a grain as the encoder reads it through the grain's properties. *)
Inductive gbody :=
| BEmpty
| BVideo (v : vmeta)
| BCoded (c : cmeta)
| BAudio (a : ameta)
| BCAudio (a : cameta)
| BEvent.

(** What the encoder reads from a grain (Grain.py, VideoGrain.py, CodedVideoGrain.py, AudioGrain.py,
    CodedAudioGrain.py, EventGrain.py properties): [g_len] is [grain.length], [g_data] is [grain.data] (None or
    bytes). The two are separate because [length] can come from a pending fetch (Grain.py 681-690). *)
Record grain := mkGrain {
  g_src : bytes; g_flow : bytes; g_origin : Z; g_sync : Z; g_rate : rat; g_dur : rat;
  g_tils : list til; g_body : gbody; g_len : Z; g_data : option bytes }.

(** GSFEncoderTag.tag_block_size, gsf.py 2149-2151. *)
Definition tag_size (kv : str * str) : Z := 12 + zlen (tag_text (fst kv)) + zlen (tag_text (snd kv)).

(** GSFEncoderTag.__bytes__, gsf.py 2153-2160. *)
Definition enc_tag (kv : str * str) : bytes :=
  T_tag ++ enc_uint 4 (tag_size kv) ++
  enc_uint 2 (zlen (tag_text (fst kv))) ++ tag_text (fst kv) ++
  enc_uint 2 (zlen (tag_text (snd kv))) ++ tag_text (snd kv).

(** GSFEncoderFlow, gsf.py 2120-2124; the data has already been encoded by add_flow (2466-2467). *)
Record eflow := mkEFlow { ef_src : bytes; ef_flow : bytes; ef_format : str; ef_data : bytes }.

(** The parts of a GSFEncoderSegment that go into its header. *)
Record eseg := mkESeg { es_local : Z; es_id : bytes; es_flow : option eflow; es_tags : list (str * str) }.

Fixpoint zsum (l : list Z) : Z := match l with [] => 0 | x :: t => x + zsum t end.

(** flow_block_size, gsf.py 2203-2207. *)
Definition flow_size (fl : option eflow) : Z :=
  match fl with None => 0 | Some x => 108 + zlen (ef_data x) end.

(** segm_block_size, gsf.py 2209-2211. *)
Definition segm_size (s : eseg) : Z := 34 + flow_size (es_flow s) + zsum (map tag_size (es_tags s)).

(** gsf.py 2235-2244. *)
Definition enc_flow (fl : option eflow) : bytes :=
  match fl with
  | None => []
  | Some x =>
      T_flow ++ enc_uint 4 (flow_size fl) ++
      enc_uuid (ef_src x) ++ enc_uuid (ef_flow x) ++
      enc_fixstring 64 (ef_format x) ++
      enc_uint 4 (zlen (ef_data x)) ++ ef_data x
  end.

(** The bytes before the count in _encode_header, gsf.py 2222-2228. *)
Definition enc_segm_prefix (s : eseg) : bytes :=
  T_segm ++ enc_uint 4 (segm_size s) ++ enc_uint 2 (es_local s) ++ enc_uuid (es_id s).

(** _encode_header, gsf.py 2220-2249; [count] is seg.count when all_at_once, -1 otherwise. *)
Definition enc_segm (s : eseg) (count : Z) : bytes :=
  enc_segm_prefix s ++ enc_sint 8 count ++ enc_flow (es_flow s) ++ flat_map enc_tag (es_tags s).

(** count_pos, gsf.py 2229. *)
Definition count_pos (s : eseg) : Z := zlen (enc_segm_prefix s).

(** _encode_file_header, gsf.py 1665-1669. *)
Definition enc_file_header (major minor : Z) : bytes :=
  T_SSBB ++ T_grsg ++ enc_uint 2 major ++ enc_uint 2 minor.

(** The bytes of the head block before its segments, gsf.py 1672-1685. *)
Definition enc_head_prefix (id : bytes) (created : datetime) (segs : list eseg) (tags : list (str * str)) : bytes :=
  T_head ++
  enc_uint 4 (31 + zsum (map segm_size segs) + zsum (map tag_size tags)) ++
  enc_uuid id ++ enc_datetime created.

(** _encode_head_block, gsf.py 1671-1696; each segment comes with the count to write. *)
Definition enc_head (id : bytes) (created : datetime) (segs : list (eseg * Z)) (tags : list (str * str)) : bytes :=
  enc_head_prefix id created (map fst segs) tags ++
  flat_map (fun sc => enc_segm (fst sc) (snd sc)) segs ++
  flat_map enc_tag tags.

(** The offsets returned by _encode_head_block, gsf.py 1688-1690: position of each count field relative to the
    start of the head block; [start] is len(data) so far. *)
Fixpoint head_offsets (start : Z) (segs : list (eseg * Z)) : list Z :=
  match segs with
  | [] => []
  | (s, c) :: t => (start + count_pos s) :: head_offsets (start + zlen (enc_segm s c)) t
  end.

(** ---------------------------------------------------------------- grains *)

(** _vghd_size_for_grain, gsf.py 2348-2352. *)
Definition vghd_size (v : vmeta) : Z :=
  44 + (if zlen (v_comps v) >? 0 then 10 + 16 * zlen (v_comps v) else 0).

Definition units (c : cmeta) : list Z := match c_units c with Some l => l | None => [] end.

(** _cghd_size_for_grain, gsf.py 2407-2411. *)
Definition cghd_size (c : cmeta) : Z :=
  37 + (if zlen (units c) >? 0 then 10 + 4 * zlen (units c) else 0).

Definition body_size (b : gbody) : Z :=
  match b with
  | BEmpty => 0
  | BVideo v => vghd_size v
  | BCoded c => cghd_size c
  | BAudio _ => 22
  | BCAudio _ => 30
  | BEvent => 9
  end.

(** _gbhd_size_for_grain, gsf.py 2327-2346. *)
Definition gbhd_size (major : Z) (g : grain) : Z :=
  78 + (if major =? 7 then 16 - 2 else 0)
  + (if zlen (g_tils g) >? 0 then 10 + 29 * zlen (g_tils g) else 0)
  + body_size (g_body g).

(** gsf.py 2294-2301. *)
Definition enc_til (t : til) : bytes :=
  enc_fixstring 16 (tl_tag t) ++ enc_uint 4 (tl_count t) ++ enc_uint 4 (tl_num t) ++ enc_uint 4 (tl_den t) ++
  enc_uint 1 (if tl_drop t then 1 else 0).

(** gsf.py 2287-2301. *)
Definition enc_tils (l : list til) : bytes :=
  if zlen l >? 0 then
    T_tils ++ enc_uint 4 (10 + 29 * zlen l) ++ enc_uint 2 (zlen l) ++ flat_map enc_til l
  else [].

(** gsf.py 2380-2383. *)
Definition enc_comp (c : comp) : bytes :=
  enc_uint 4 (co_width c) ++ enc_uint 4 (co_height c) ++ enc_uint 4 (co_stride c) ++ enc_uint 4 (co_length c).

(** gsf.py 2364-2371. *)
Definition enc_ratio (r : option rat) : bytes :=
  match r with None => enc_rational (0, 1) | Some x => enc_rational x end.

(** _encode_vghd_for_grain, gsf.py 2354-2385; reading cog_frame_format / cog_frame_layout raises ValueError for
    a number outside the enumeration (VideoGrain.py cog_frame_format, cog_frame_layout properties). *)
Definition enc_vghd (v : vmeta) : res bytes :=
  rbind (to_enum frame_formats (v_format v)) (fun fmt =>
  rbind (to_enum frame_layouts (v_layout v)) (fun lay =>
  Ok (T_vghd ++ enc_uint 4 (vghd_size v) ++
      enc_uint 4 fmt ++ enc_uint 4 lay ++ enc_uint 4 (v_width v) ++ enc_uint 4 (v_height v) ++
      enc_uint 4 (v_ext v) ++ enc_ratio (v_sar v) ++ enc_ratio (v_par v) ++
      (if zlen (v_comps v) >? 0 then
         T_comp ++ enc_uint 4 (10 + 16 * zlen (v_comps v)) ++ enc_uint 2 (zlen (v_comps v)) ++
         flat_map enc_comp (v_comps v)
       else [])))).

(** _encode_cghd_for_grain, gsf.py 2413-2434. *)
Definition enc_cghd (c : cmeta) : res bytes :=
  rbind (to_enum frame_formats (c_format c)) (fun fmt =>
  rbind (to_enum frame_layouts (c_layout c)) (fun lay =>
  Ok (T_cghd ++ enc_uint 4 (cghd_size c) ++
      enc_uint 4 fmt ++ enc_uint 4 lay ++ enc_uint 4 (c_ow c) ++ enc_uint 4 (c_oh c) ++
      enc_uint 4 (c_cw c) ++ enc_uint 4 (c_ch c) ++
      enc_uint 1 (match c_key c with Some true => 1 | Some false => 0 | None => 3 end) ++
      enc_sint 4 (match c_temporal c with Some t => t | None => 2147483647 end) ++
      (if zlen (units c) >? 0 then
         T_unof ++ enc_uint 4 (10 + 4 * zlen (units c)) ++ enc_uint 2 (zlen (units c)) ++
         flat_map (enc_uint 4) (units c)
       else [])))).

(** _encode_aghd_for_grain, gsf.py 2398-2405. *)
Definition enc_aghd (a : ameta) : res bytes :=
  rbind (to_enum audio_formats (a_format a)) (fun fmt =>
  Ok (T_aghd ++ enc_uint 4 22 ++
      enc_uint 4 fmt ++ enc_uint 2 (a_channels a) ++ enc_uint 4 (a_samples a) ++ enc_uint 4 (a_rate a))).

(** _encode_cahd_for_grain, gsf.py 2439-2448. *)
Definition enc_cahd (a : cameta) : res bytes :=
  rbind (to_enum audio_formats (ca_format a)) (fun fmt =>
  Ok (T_cahd ++ enc_uint 4 30 ++
      enc_uint 4 fmt ++ enc_uint 2 (ca_channels a) ++ enc_uint 4 (ca_samples a) ++ enc_uint 4 (ca_priming a) ++
      enc_uint 4 (ca_remainder a) ++ enc_uint 4 (ca_rate a))).

(** _encode_eghd_for_grain, gsf.py 2390-2393. *)
Definition enc_eghd : bytes := T_eghd ++ enc_uint 4 9 ++ enc_uint 1 0.

(** The type dispatch, gsf.py 2303-2314. *)
Definition enc_body (b : gbody) : res bytes :=
  match b with
  | BEmpty => Ok []
  | BVideo v => enc_vghd v
  | BCoded c => enc_cghd c
  | BAudio a => enc_aghd a
  | BCAudio a => enc_cahd a
  | BEvent => Ok enc_eghd
  end.

Definition opt_bytes (d : option bytes) : bytes := match d with Some x => x | None => [] end.

(** The timestamp part, gsf.py 2265-2269 and 2281-2283. *)
Definition enc_times (major : Z) (g : grain) : bytes :=
  if major =? 7 then zeros 16 ++ enc_ts_v7 (g_origin g) ++ enc_ts_v7 (g_sync g)
  else enc_ts (g_origin g) ++ enc_ts (g_sync g).

(** encode_grain, gsf.py 2262-2325 (the write-count update is in the encoder state model). *)
Definition enc_grain (major local : Z) (g : grain) : res bytes :=
  rbind (enc_body (g_body g)) (fun body =>
  Ok (T_grai ++ enc_uint 4 (10 + gbhd_size major g + 8 + g_len g) ++ enc_uint 2 local ++
      T_gbhd ++ enc_uint 4 (gbhd_size major g) ++
      enc_uuid (g_src g) ++ enc_uuid (g_flow g) ++
      enc_times major g ++
      enc_rational (g_rate g) ++ enc_rational (g_dur g) ++
      enc_tils (g_tils g) ++
      body ++
      T_grdt ++ enc_uint 4 (8 + g_len g) ++ opt_bytes (g_data g))).

(** The terminator written by _end_dump, gsf.py 1777-1779. *)
Definition terminator : bytes := T_grai ++ enc_uint 4 0.
