(** Specification vocabulary for the GSF wire format, independent of the reader and writer code:
    what a well-formed file is (a tree of exactly-sized blocks, possibly with extra unknown blocks), which grains
    are representable, and the normal form in which they come back. *)
From Verif Require Import Base Utf8 GsfPrim GsfBlock GsfDecode CogEnums GsfEncode GsfPrimProofs GsfBlockProofs.

Definition u16 (v : Z) : Prop := 0 <= v < 65536.
Definition u32 (v : Z) : Prop := 0 <= v < 4294967296.
Definition i32 (v : Z) : Prop := -2147483648 <= v < 2147483648.
Definition i64 (v : Z) : Prop := -9223372036854775808 <= v < 9223372036854775808.

(** Text that fits a field of [n] bytes. *)
Definition text_fits (n : Z) (s : str) : Prop := str_ok s /\ no_edge_nul s /\ zlen (utf8_enc s) <= n.

Definition uuid_ok (u : bytes) : Prop := zlen u = 16 /\ bytes_ok u.

(** ---------------------------------------------------------------- representable values *)

Definition til_ok (t : til) : Prop :=
  text_fits 16 (tl_tag t) /\ u32 (tl_count t) /\ u32 (tl_num t) /\ u32 (tl_den t).

Definition comp_ok (c : comp) : Prop := u32 (co_width c) /\ u32 (co_height c) /\ u32 (co_stride c) /\ u32 (co_length c).

Definition ratio_ok (r : option rat) : Prop :=
  match r with None => True | Some x => rat_ok x /\ rat_fits x end.

Definition vmeta_ok (v : vmeta) : Prop :=
  member frame_formats (v_format v) = true /\ member frame_layouts (v_layout v) = true /\
  u32 (v_width v) /\ u32 (v_height v) /\ u32 (v_ext v) /\ ratio_ok (v_sar v) /\ ratio_ok (v_par v) /\
  Forall comp_ok (v_comps v) /\ u16 (zlen (v_comps v)).

Definition cmeta_ok (c : cmeta) : Prop :=
  member frame_formats (c_format c) = true /\ member frame_layouts (c_layout c) = true /\
  u32 (c_ow c) /\ u32 (c_oh c) /\ u32 (c_cw c) /\ u32 (c_ch c) /\
  match c_temporal c with None => True | Some t => i32 t end /\
  Forall u32 (units c) /\ u16 (zlen (units c)).

Definition ameta_ok (a : ameta) : Prop :=
  member audio_formats (a_format a) = true /\ u16 (a_channels a) /\ u32 (a_samples a) /\ u32 (a_rate a).

Definition cameta_ok (a : cameta) : Prop :=
  member audio_formats (ca_format a) = true /\ u16 (ca_channels a) /\ u32 (ca_samples a) /\ u32 (ca_priming a) /\
  u32 (ca_remainder a) /\ u32 (ca_rate a).

Definition gbody_ok (b : gbody) : Prop :=
  match b with
  | BEmpty | BEvent => True
  | BVideo v => vmeta_ok v
  | BCoded c => cmeta_ok c
  | BAudio a => ameta_ok a
  | BCAudio a => cameta_ok a
  end.

(** A grain that fits the format: every field in range, [length] the length of the data. *)
Definition grain_ok (g : grain) : Prop :=
  uuid_ok (g_src g) /\ uuid_ok (g_flow g) /\ ts_fits (g_origin g) /\ ts_fits (g_sync g) /\
  rat_ok (g_rate g) /\ rat_fits (g_rate g) /\ rat_ok (g_dur g) /\ rat_fits (g_dur g) /\
  Forall til_ok (g_tils g) /\ u16 (zlen (g_tils g)) /\
  gbody_ok (g_body g) /\
  g_len g = zlen (opt_bytes (g_data g)) /\ bytes_ok (opt_bytes (g_data g)).

(** ---------------------------------------------------------------- normal forms *)

(** The value of a time label's rate in lowest terms (0/1 when either part is zero). *)
Definition norm_til (t : til) : til :=
  let r := rat_norm (tl_num t) (tl_den t) in mkTil (tl_tag t) (tl_count t) (fst r) (snd r) (tl_drop t).

Fixpoint norm_comps (offset : Z) (l : list comp) : list comp :=
  match l with
  | [] => []
  | c :: t => mkComp (co_width c) (co_height c) (co_stride c) offset (co_length c) ::
              norm_comps (offset + co_length c) t
  end.

Definition norm_ratio (r : option rat) : option rat :=
  match r with None => None | Some x => if fst x =? 0 then None else Some x end.

Definition norm_vmeta (v : vmeta) : vmeta :=
  mkV (v_format v) (v_layout v) (v_width v) (v_height v) (v_ext v) (norm_ratio (v_sar v)) (norm_ratio (v_par v))
      (norm_comps 0 (v_comps v)).

(** Version 9 can express an absent key-frame flag and temporal offset (0x7fffffff stands for "absent");
    older versions cannot: an absent flag comes back as true and an absent offset as 0x7fffffff. *)
Definition norm_key (major : Z) (k : option bool) : option bool :=
  if major <? 9 then Some (match k with Some b => b | None => true end) else k.
Definition norm_temporal (major : Z) (t : option Z) : option Z :=
  if major <? 9 then Some (match t with Some x => x | None => 2147483647 end)
  else match t with Some x => if x =? 2147483647 then None else Some x | None => None end.

Definition norm_cmeta (major : Z) (c : cmeta) : cmeta :=
  mkC (c_format c) (c_layout c) (c_ow c) (c_oh c) (c_cw c) (c_ch c)
      (norm_key major (c_key c)) (norm_temporal major (c_temporal c))
      (match units c with [] => None | l => Some l end).

Definition norm_ts (major t : Z) : Z := if major =? 7 then Z.abs t else t.

Definition norm_tils (l : list til) : option (list til) :=
  match l with [] => None | _ => Some (map norm_til l) end.

(** The metadata with which a grain comes back from a file of version [major]. *)
Definition meta_of (major : Z) (g : grain) : gmeta :=
  mkMeta (g_src g) (g_flow g) (norm_ts major (g_origin g)) (norm_ts major (g_sync g)) (g_rate g) (g_dur g)
         (norm_tils (g_tils g))
         (match g_body g with
          | BEmpty => TEmpty | BVideo _ => TVideo | BCoded _ => TCoded | BAudio _ => TAudio
          | BCAudio _ => TCAudio | BEvent => TEvent end)
         (match g_body g with BVideo v => Some (norm_vmeta v) | _ => None end)
         (match g_body g with BCoded c => Some (norm_cmeta major c) | _ => None end)
         (match g_body g with BAudio a => Some a | _ => None end)
         (match g_body g with BCAudio a => Some a | _ => None end).

(** ---------------------------------------------------------------- well-formed files *)

Definition block := (bytes * bytes)%type.   (* raw tag, payload *)

(** [Interleave P l l']: [l'] is [l] with extra elements satisfying [P] inserted anywhere. *)
Inductive Interleave {A} (P : A -> Prop) : list A -> list A -> Prop :=
| IL_nil : Interleave P [] []
| IL_keep x l l' : Interleave P l l' -> Interleave P (x :: l) (x :: l')
| IL_extra x l l' : P x -> Interleave P l l' -> Interleave P l (x :: l').

(** A block that the context does not know: its tag is valid UTF-8, is not the concatenation marker and is not
    one of the tags recognised in that context. *)
Definition unknown_in (known : list str) (c : block) : Prop :=
  exists tag, raw_tag (fst c) tag /\ ~ In tag known.

Definition vghd_known : list str := [T_comp].
Definition cghd_known : list str := [T_unof].
Definition gbhd_known : list str := [T_tils; T_vghd; T_cghd; T_aghd; T_cahd; T_eghd].
Definition segm_known : list str := [T_flow; T_tag].
Definition head_known : list str := [T_segm; T_tag].

Definition blocks (l : list block) : bytes := flat_map enc_blk l.

(** Payloads, written as fixed fields followed by child blocks. *)
Definition comp_children (v : vmeta) : list block :=
  match v_comps v with
  | [] => []
  | l => [(T_comp, enc_uint 2 (zlen l) ++ flat_map enc_comp l)]
  end.
Definition vghd_fixed (v : vmeta) : bytes :=
  enc_uint 4 (v_format v) ++ enc_uint 4 (v_layout v) ++ enc_uint 4 (v_width v) ++ enc_uint 4 (v_height v) ++
  enc_uint 4 (v_ext v) ++ enc_ratio (v_sar v) ++ enc_ratio (v_par v).

Definition unof_children (c : cmeta) : list block :=
  match units c with
  | [] => []
  | l => [(T_unof, enc_uint 2 (zlen l) ++ flat_map (enc_uint 4) l)]
  end.
Definition cghd_fixed (c : cmeta) : bytes :=
  enc_uint 4 (c_format c) ++ enc_uint 4 (c_layout c) ++ enc_uint 4 (c_ow c) ++ enc_uint 4 (c_oh c) ++
  enc_uint 4 (c_cw c) ++ enc_uint 4 (c_ch c) ++
  enc_uint 1 (match c_key c with Some true => 1 | Some false => 0 | None => 3 end) ++
  enc_sint 4 (match c_temporal c with Some t => t | None => 2147483647 end).

Definition aghd_payload (a : ameta) : bytes :=
  enc_uint 4 (a_format a) ++ enc_uint 2 (a_channels a) ++ enc_uint 4 (a_samples a) ++ enc_uint 4 (a_rate a).
Definition cahd_payload (a : cameta) : bytes :=
  enc_uint 4 (ca_format a) ++ enc_uint 2 (ca_channels a) ++ enc_uint 4 (ca_samples a) ++
  enc_uint 4 (ca_priming a) ++ enc_uint 4 (ca_remainder a) ++ enc_uint 4 (ca_rate a).

Definition tils_children (l : list til) : list block :=
  match l with
  | [] => []
  | _ => [(T_tils, enc_uint 2 (zlen l) ++ flat_map enc_til l)]
  end.

(** The type-specific header block, possibly with unknown blocks among its children. *)
Inductive BodyBlocks : gbody -> list block -> Prop :=
| BB_empty : BodyBlocks BEmpty []
| BB_event : BodyBlocks BEvent [(T_eghd, enc_uint 1 0)]
| BB_audio a : BodyBlocks (BAudio a) [(T_aghd, aghd_payload a)]
| BB_caudio a : BodyBlocks (BCAudio a) [(T_cahd, cahd_payload a)]
| BB_video v cs : Interleave (unknown_in vghd_known) (comp_children v) cs ->
    BodyBlocks (BVideo v) [(T_vghd, vghd_fixed v ++ blocks cs)]
| BB_coded c cs : Interleave (unknown_in cghd_known) (unof_children c) cs ->
    BodyBlocks (BCoded c) [(T_cghd, cghd_fixed c ++ blocks cs)].

Definition gbhd_fixed (major : Z) (g : grain) : bytes :=
  enc_uuid (g_src g) ++ enc_uuid (g_flow g) ++ enc_times major g ++ enc_rational (g_rate g) ++ enc_rational (g_dur g).

(** The payload of a gbhd block for grain [g] in a file of version [major]. *)
Inductive GbhdPayload (major : Z) (g : grain) : bytes -> Prop :=
| GP_intro body cs :
    BodyBlocks (g_body g) body ->
    Interleave (unknown_in gbhd_known) (tils_children (g_tils g) ++ body) cs ->
    GbhdPayload major g (gbhd_fixed major g ++ blocks cs).

(** The payload of a grai block, and the offset of the grain's data in it: local id, gbhd, extra blocks, grdt,
    and anything at all after it. *)
Inductive GraiPayload (major local : Z) (g : grain) : bytes -> Z -> Prop :=
| GR_intro gb extra trail :
    GbhdPayload major g gb ->
    Forall (unknown_in [T_grdt]) extra ->
    GraiPayload major local g
      (enc_uint 2 local ++ enc_block T_gbhd gb ++ blocks extra ++
       enc_block T_grdt (opt_bytes (g_data g)) ++ trail)
      (2 + zlen (enc_block T_gbhd gb) + zlen (blocks extra) + 8).

(** ---------------------------------------------------------------- headers *)

Definition tag_fits (kv : str * str) : Prop := text_fits 65535 (fst kv) /\ text_fits 65535 (snd kv).

Definition tag_block (kv : str * str) : block := (T_tag, enc_varstring (fst kv) ++ enc_varstring (snd kv)).

Definition flow_fits (fl : eflow) (s : str) : Prop :=
  uuid_ok (ef_src fl) /\ uuid_ok (ef_flow fl) /\ text_fits 64 (ef_format fl) /\ utf8_dec (ef_data fl) = Some s.

Definition flow_children (fl : option eflow) : list block :=
  match fl with
  | None => []
  | Some x => [(T_flow, enc_uuid (ef_src x) ++ enc_uuid (ef_flow x) ++ enc_fixstring 64 (ef_format x) ++
                        enc_uint 4 (zlen (ef_data x)) ++ ef_data x)]
  end.

(** The decoded form of a flow description. *)
Inductive FlowOf : option eflow -> option flow -> Prop :=
| FO_none : FlowOf None None
| FO_some x s : flow_fits x s -> FlowOf (Some x) (Some (mkFlow (ef_src x) (ef_flow x) (ef_format x) s)).

(** The payload of a segm block with count [count] and what it decodes to. *)
Inductive SegmPayload (s : eseg) (count : Z) : bytes -> segm -> Prop :=
| SP_intro fl cs :
    u16 (es_local s) -> uuid_ok (es_id s) -> i64 count -> Forall tag_fits (es_tags s) ->
    FlowOf (es_flow s) fl ->
    Interleave (unknown_in segm_known) (flow_children (es_flow s) ++ map tag_block (es_tags s)) cs ->
    SegmPayload s count
      (enc_uint 2 (es_local s) ++ enc_uuid (es_id s) ++ enc_sint 8 count ++ blocks cs)
      (mkSegm (es_local s) (es_id s) count fl (es_tags s)).

Inductive SegmBlocks : list (eseg * Z) -> list block -> list segm -> Prop :=
| SB_nil : SegmBlocks [] [] []
| SB_cons s c pl sg l bl sl : SegmPayload s c pl sg -> SegmBlocks l bl sl ->
    SegmBlocks ((s, c) :: l) ((T_segm, pl) :: bl) (sg :: sl).

(** The payload of a head block and what it decodes to. *)
Inductive HeadPayload (id : bytes) (created : datetime) (segs : list (eseg * Z)) (tags : list (str * str))
  : bytes -> head -> Prop :=
| HP_intro bl sl cs :
    uuid_ok id -> dt_valid created = true -> Forall tag_fits tags ->
    SegmBlocks segs bl sl ->
    Interleave (unknown_in head_known) (bl ++ map tag_block tags) cs ->
    HeadPayload id created segs tags (enc_uuid id ++ enc_datetime created ++ blocks cs)
                (mkHead id created sl tags).

(** ---------------------------------------------------------------- single fields *)

(** Reader [m], started where [enc] begins in any file (whatever precedes and follows it, for any kind of input
    stream), returns [v] and stops exactly after [enc]. *)
Definition reads_back {A} (m : rd A) (enc : bytes) (v : A) : Prop :=
  forall pre rest base strict fwd,
  m (mkFile (pre ++ enc ++ rest) base strict fwd) (zlen pre) = Ok (v, zlen pre + zlen enc).

(** Reader [m] raises [e] there. *)
Definition read_fails {A} (m : rd A) (enc : bytes) (e : err) : Prop :=
  forall pre rest base strict fwd,
  m (mkFile (pre ++ enc ++ rest) base strict fwd) (zlen pre) = Err e.

(** A date and time of the calendar. *)
Definition leap_year (y : Z) : Prop := (y mod 4 = 0 /\ y mod 100 <> 0) \/ y mod 400 = 0.
Definition month_days (y m n : Z) : Prop :=
  (In m [1; 3; 5; 7; 8; 10; 12] /\ n = 31) \/ (In m [4; 6; 9; 11] /\ n = 30) \/
  (m = 2 /\ leap_year y /\ n = 29) \/ (m = 2 /\ ~ leap_year y /\ n = 28).
Definition date_exists (d : datetime) : Prop :=
  1 <= dt_year d <= 9999 /\ (exists n, month_days (dt_year d) (dt_month d) n /\ 1 <= dt_day d <= n) /\
  0 <= dt_hour d <= 23 /\ 0 <= dt_min d <= 59 /\ 0 <= dt_sec d <= 59.
Definition date_fields (d : datetime) : Prop :=
  -32768 <= dt_year d < 32768 /\ Forall (fun v => 0 <= v < 256) [dt_month d; dt_day d; dt_hour d; dt_min d; dt_sec d].
