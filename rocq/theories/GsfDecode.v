(** The GSF decoder: /repo/mediagrains/gsf.py lines 827-1341. *)
From Verif Require Import Base Utf8 GsfPrim GsfBlock.

(** ---------------------------------------------------------------- decoded metadata *)

Record flow := mkFlow { fl_src : bytes; fl_flow : bytes; fl_format : str; fl_data : str }.

Record segm := mkSegm { sg_local : Z; sg_id : bytes; sg_count : Z; sg_flow : option flow; sg_tags : list (str * str) }.

Record head := mkHead { hd_id : bytes; hd_created : datetime; hd_segs : list segm; hd_tags : list (str * str) }.

Record til := mkTil { tl_tag : str; tl_count : Z; tl_num : Z; tl_den : Z; tl_drop : bool }.

Record comp := mkComp { co_width : Z; co_height : Z; co_stride : Z; co_offset : Z; co_length : Z }.

Record vmeta := mkV {
  v_format : Z; v_layout : Z; v_width : Z; v_height : Z; v_ext : Z;
  v_sar : option rat; v_par : option rat; v_comps : list comp }.

Record cmeta := mkC {
  c_format : Z; c_layout : Z; c_ow : Z; c_oh : Z; c_cw : Z; c_ch : Z;
  c_key : option bool; c_temporal : option Z; c_units : option (list Z) }.

Record ameta := mkA { a_format : Z; a_channels : Z; a_samples : Z; a_rate : Z }.

Record cameta := mkCA {
  ca_format : Z; ca_channels : Z; ca_samples : Z; ca_priming : Z; ca_remainder : Z; ca_rate : Z }.

(** meta['grain']['grain_type']; TEmpty stands for the key being absent. *)
Inductive gtype := TEmpty | TVideo | TCoded | TAudio | TCAudio | TEvent.

(** The dictionary built by _sync_decode_gbhd: each optional field is a key that may be absent. *)
Record gmeta := mkMeta {
  m_src : bytes; m_flow : bytes; m_origin : Z; m_sync : Z; m_rate : rat; m_dur : rat;
  m_tils : option (list til); m_type : gtype;
  m_video : option vmeta; m_coded : option cmeta; m_audio : option ameta; m_caudio : option cameta }.

Definition set_tils (m : gmeta) (t : list til) : gmeta :=
  mkMeta (m_src m) (m_flow m) (m_origin m) (m_sync m) (m_rate m) (m_dur m) (Some t) (m_type m)
         (m_video m) (m_coded m) (m_audio m) (m_caudio m).
Definition set_video (m : gmeta) (v : vmeta) : gmeta :=
  mkMeta (m_src m) (m_flow m) (m_origin m) (m_sync m) (m_rate m) (m_dur m) (m_tils m) TVideo
         (Some v) (m_coded m) (m_audio m) (m_caudio m).
Definition set_coded (m : gmeta) (c : cmeta) : gmeta :=
  mkMeta (m_src m) (m_flow m) (m_origin m) (m_sync m) (m_rate m) (m_dur m) (m_tils m) TCoded
         (m_video m) (Some c) (m_audio m) (m_caudio m).
Definition set_audio (m : gmeta) (a : ameta) : gmeta :=
  mkMeta (m_src m) (m_flow m) (m_origin m) (m_sync m) (m_rate m) (m_dur m) (m_tils m) TAudio
         (m_video m) (m_coded m) (Some a) (m_caudio m).
Definition set_caudio (m : gmeta) (a : cameta) : gmeta :=
  mkMeta (m_src m) (m_flow m) (m_origin m) (m_sync m) (m_rate m) (m_dur m) (m_tils m) TCAudio
         (m_video m) (m_coded m) (m_audio m) (Some a).
Definition set_event (m : gmeta) : gmeta :=
  mkMeta (m_src m) (m_flow m) (m_origin m) (m_sync m) (m_rate m) (m_dur m) (m_tils m) TEvent
         (m_video m) (m_coded m) (m_audio m) (m_caudio m).

(** ---------------------------------------------------------------- head block *)

(** gsf.py 860-870: the flow block. A flow block whose data is not UTF-8 raises UnicodeDecodeError. *)
Definition decode_flow : rd flow :=
  src <- read_uuid ;;
  fl <- read_uuid ;;
  format <- read_string 64 ;;
  data <- read_varbytes ;;
  match utf8_dec data with
  | Some s => ret (mkFlow src fl format s)
  | None => fail EUnicode
  end.

(** gsf.py 872-874 and 880-882. *)
Definition decode_tag : rd (str * str) :=
  key <- read_varstring ;;
  value <- read_varstring ;;
  ret (key, value).

(** One child of a segm block, gsf.py 858-874. *)
Definition segm_child (c : blk) (s : segm) : rd segm :=
  if tag_is T_flow c then
    fl <- decode_flow ;;
    ret (mkSegm (sg_local s) (sg_id s) (sg_count s) (Some fl) (sg_tags s))
  else if tag_is T_tag c then
    kv <- decode_tag ;;
    ret (mkSegm (sg_local s) (sg_id s) (sg_count s) (sg_flow s) (sg_tags s ++ [kv]))
  else ret s.

(** gsf.py 848-876. *)
Definition decode_segm (b : blk) : rd segm :=
  local <- read_uint 2 ;;
  id <- read_uuid ;;
  count <- read_sint 8 ;;
  children b segm_child (mkSegm local id count None []).

(** One child of the head block, gsf.py 846-882. *)
Definition head_child (c : blk) (h : head) : rd head :=
  if tag_is T_segm c then
    s <- decode_segm c ;;
    ret (mkHead (hd_id h) (hd_created h) (hd_segs h ++ [s]) (hd_tags h))
  else if tag_is T_tag c then
    kv <- decode_tag ;;
    ret (mkHead (hd_id h) (hd_created h) (hd_segs h) (hd_tags h ++ [kv]))
  else ret h.

(** _sync_decode_head, gsf.py 833-884. *)
Definition decode_head (b : blk) : rd head :=
  id <- read_uuid ;;
  created <- read_datetime ;;
  children b head_child (mkHead id created [] []).

(** ---------------------------------------------------------------- gbhd block *)

(** One time label, gsf.py 895-905. [tag.strip("\x00")] after read_string changes nothing, because
    what read_string returns neither starts nor ends with a NUL ([clean_string_edge] in GsfPrimFacts). *)
Definition decode_til : rd til :=
  tag <- read_string 16 ;;
  count <- read_uint 4 ;;
  rate <- read_rational ;;
  drop <- read_bool ;;
  ret (mkTil tag count (fst rate) (snd rate) drop).

(** _sync_decode_tils, gsf.py 886-907. *)
Definition decode_tils : rd (list til) :=
  n <- read_uint 2 ;;
  repeatm (Z.to_nat n) decode_til.

(** gsf.py 967-977: components, with running offset. *)
Fixpoint decode_comps (n : nat) (offset : Z) : rd (list comp) :=
  match n with
  | O => ret []
  | S k =>
      w <- read_uint 4 ;;
      h <- read_uint 4 ;;
      stride <- read_uint 4 ;;
      len <- read_uint 4 ;;
      l <- decode_comps k (offset + len) ;;
      ret (mkComp w h stride offset len :: l)
  end.

(** gsf.py 960-977: one child of vghd. *)
Definition vghd_child (c : blk) (comps : list comp) : rd (list comp) :=
  if tag_is T_comp c then
    n <- read_uint 2 ;;
    decode_comps (Z.to_nat n) 0
  else ret comps.

(** gsf.py 945-957: a zero ratio leaves the key absent. *)
Definition opt_ratio (r : rat) : option rat := if fst r =? 0 then None else Some r.

(** gsf.py 936-977. *)
Definition decode_vghd (b : blk) : rd vmeta :=
  format <- read_uint 4 ;;
  layout <- read_uint 4 ;;
  width <- read_uint 4 ;;
  height <- read_uint 4 ;;
  ext <- read_uint 4 ;;
  sar <- read_rational ;;
  par <- read_rational ;;
  comps <- children b vghd_child [] ;;
  ret (mkV format layout width height ext (opt_ratio sar) (opt_ratio par) comps).

(** gsf.py 999-1007: one child of cghd. *)
Definition cghd_child (c : blk) (units : option (list Z)) : rd (option (list Z)) :=
  if tag_is T_unof c then
    n <- read_uint 2 ;;
    l <- repeatm (Z.to_nat n) (read_uint 4) ;;
    ret (Some l)
  else ret units.

(** gsf.py 988-997: the two fields whose reading depends on the file version. *)
Definition decode_key_temporal (major : Z) : rd (option bool * option Z) :=
  if major <? 9 then
    k <- read_bool ;;
    t <- read_sint 4 ;;
    ret (Some k, Some t)
  else
    k <- read_optional_bool ;;
    t <- read_optional_sint 4 2147483647 ;;
    ret (k, t).

(** gsf.py 979-1007. *)
Definition decode_cghd (major : Z) (b : blk) : rd cmeta :=
  format <- read_uint 4 ;;
  layout <- read_uint 4 ;;
  ow <- read_uint 4 ;;
  oh <- read_uint 4 ;;
  cw <- read_uint 4 ;;
  ch <- read_uint 4 ;;
  kt <- decode_key_temporal major ;;
  units <- children b cghd_child None ;;
  ret (mkC format layout ow oh cw ch (fst kt) (snd kt) units).

(** gsf.py 1009-1015. *)
Definition decode_aghd : rd ameta :=
  format <- read_uint 4 ;;
  channels <- read_uint 2 ;;
  samples <- read_uint 4 ;;
  rate <- read_uint 4 ;;
  ret (mkA format channels samples rate).

(** gsf.py 1017-1025. *)
Definition decode_cahd : rd cameta :=
  format <- read_uint 4 ;;
  channels <- read_uint 2 ;;
  samples <- read_uint 4 ;;
  priming <- read_uint 4 ;;
  remainder <- read_uint 4 ;;
  rate <- read_uint 4 ;;
  ret (mkCA format channels samples priming remainder rate).

(** One child of gbhd, gsf.py 933-1028. *)
Definition gbhd_child (major : Z) (c : blk) (m : gmeta) : rd gmeta :=
  if tag_is T_tils c then t <- decode_tils ;; ret (set_tils m t)
  else if tag_is T_vghd c then v <- decode_vghd c ;; ret (set_video m v)
  else if tag_is T_cghd c then v <- decode_cghd major c ;; ret (set_coded m v)
  else if tag_is T_aghd c then v <- decode_aghd ;; ret (set_audio m v)
  else if tag_is T_cahd c then v <- decode_cahd ;; ret (set_caudio m v)
  else if tag_is T_eghd c then ret (set_event m)
  else ret m.

(** gsf.py 921-931: the fixed part. *)
Definition decode_gbhd_fixed (major : Z) : rd gmeta :=
  src <- read_uuid ;;
  fl <- read_uuid ;;
  ts <- (if major =? 7 then
           fskip 16 ;;;
           o <- read_timestamp_v7 ;;
           s <- read_timestamp_v7 ;;
           ret (o, s)
         else
           o <- read_timestamp ;;
           s <- read_timestamp ;;
           ret (o, s)) ;;
  rate <- read_rational ;;
  dur <- read_rational ;;
  ret (mkMeta src fl (fst ts) (snd ts) rate dur None TEmpty None None None None).

(** _sync_decode_gbhd, gsf.py 909-1030. *)
Definition decode_gbhd (major : Z) (b : blk) : rd gmeta :=
  m <- decode_gbhd_fixed major ;;
  children b (gbhd_child major) m.

(** ---------------------------------------------------------------- sessions *)

(** GrainDataLoadingMode, gsf.py 802-824. *)
Inductive lmode := LoadImmediately | LoadDefer | DeferLoad | LoadNever.

Definition deferring (m : lmode) : bool := match m with LoadDefer | DeferLoad => true | _ => false end.

(** Session parameters. [k_back]/[k_fwd]: file_data.seekable() for the sync session (both), or
    seekable_backwards()/seekable_forwards() for the async one; [k_lazy] is true for the async session without
    sync_compatibility_mode, which creates coroutines rather than IOBytes. *)
Record cfg := mkCfg { k_ids : option (list Z); k_mode : lmode; k_concat : bool;
                      k_back : bool; k_fwd : bool; k_lazy : bool }.

(** What is passed to parse_grain as the payload. *)
Inductive payload :=
| PNone
| PBytes (d : bytes)
| PIOBytes (pos len : Z)                       (* IOBytes(file, pos, len), gsf.py 1326-1328, 1195-1197 *)
| PLazy (pos len : Z) (load_on_exit : bool).   (* _read_out_of_order(...), gsf.py 1184-1192 *)

Record item := mkItem { i_meta : gmeta; i_data : payload; i_local : Z }.

Record sess := mkSess { s_major : Z; s_minor : Z; s_head : option head }.

Definition T_SSBBgrsg : str := [83; 83; 66; 66; 103; 114; 115; 103].

(** _decode_ssb_header, gsf.py 1233-1250 (async 1055-1072); [known] is the head_tag argument being given. *)
Definition decode_ssb_header (known : bool) : rd (Z * Z) :=
  (if known then ret tt
   else
     t <- read_string 8 ;;
     if zlist_eqb t T_SSBBgrsg then ret tt else fail EBadType) ;;;
  major <- read_uint 2 ;;
  minor <- read_uint 2 ;;
  ret (major, minor).

(** gsf.py 1260: "self.major not in [7, 8, 9]". *)
Definition version_ok (major : Z) : bool := (major =? 7) || (major =? 8) || (major =? 9).

(** [except EOFError: raise GSFDecodeError], gsf.py 1263-1267. *)
Definition eof_to_decode {A} (m : rd A) : rd A := fun f p =>
  match m f p with Err EEof => Err EDecode | r => r end.

(** _decode_file_headers, gsf.py 1252-1267 (async 1074-1089). *)
Definition decode_file_headers (known : bool) : rd sess :=
  v <- decode_ssb_header known ;;
  let '(major, minor) := v in
  if version_ok major then
    h <- eof_to_decode (with_block (Some T_head) false (fun b => on_remaining b decode_head)) ;;
    ret (mkSess major minor (Some h))
  else fail EBadVersion.

(** gsf.py 1320-1335 (sync) and 1175-1204 (async): the payload of a grdt block. *)
Definition decode_grdt (k : cfg) (b : blk) : rd payload :=
  r <- get_remaining b ;;
  if r >? 0 then
    if k_back k && deferring (k_mode k) then
      fun f p => Ok (if k_lazy k then PLazy p r (match k_mode k with LoadDefer => true | _ => false end)
                     else PIOBytes p r, p)
    else match k_mode k with
         | LoadNever => (if k_fwd k then fskip r else (fread r ;;; ret tt)) ;;; ret PNone
         | _ => d <- fread r ;; ret (PBytes d)
         end
  else ret PNone.

(** What one pass of the loop in [grains] does (gsf.py 1289-1341): carries on, stops, or yields an item. *)
Inductive turn := TCont (have_concat : bool) | TBreak | TYield (i : item).

Definition ids_ok (ids : option (list Z)) (local : Z) : bool :=
  match ids with None => true | Some l => existsb (Z.eqb local) l end.

(** The body of the with statement, gsf.py 1295-1335. *)
Definition grain_body (k : cfg) (major : Z) (b : blk) : rd turn :=
  if negb (tag_is T_grai b) then
    if tag_is T_SSBB b then
      if k_concat k then ret (TCont true) else ret TBreak
    else ret (TCont false)
  else if b_size b =? 0 then
    if k_concat k then ret (TCont false) else ret TBreak
  else
    local <- read_uint 2 ;;
    if negb (ids_ok (k_ids k) local) then ret (TCont false)
    else
      m <- with_block (Some T_gbhd) true (fun g => on_remaining g (decode_gbhd major)) ;;
      h <- has_child b ;;
      if h then
        d <- with_block (Some T_grdt) false (decode_grdt k) ;;
        ret (TYield (mkItem m d local))
      else ret (TYield (mkItem m PNone local)).

Definition grain_turn (k : cfg) (major : Z) : rd turn :=
  with_block None false (grain_body k major).

(** How the iteration ended. *)
Inductive outcome := Done | Raised (e : err) .

(** The loop of GSFSyncDecoderSession.grains (gsf.py 1269-1341) and GSFAsyncDecoderSession.grains (1106-1215).
    Returns the items in order, the session state and how it ended. EOFError anywhere ends it normally.
    The async code looks at have_concatenation in the same way. *)
Fixpoint grains_loop (fuel : nat) (k : cfg) (s : sess) (have_concat : bool) (f : file) (p : Z)
  : list item * sess * outcome :=
  match fuel with
  | O => ([], s, Raised EFuel)
  | S n =>
      match (if have_concat then decode_file_headers true f p else Ok (s, p)) with
      | Err EEof => ([], s, Done)
      | Err e => ([], s, Raised e)
      | Ok (s', p') =>
          match grain_turn k (s_major s') f p' with
          | Err EEof => ([], s', Done)
          | Err e => ([], s', Raised e)
          | Ok (TBreak, _) => ([], s', Done)
          | Ok (TCont c, p'') => grains_loop n k s' c f p''
          | Ok (TYield i, p'') =>
              let '(l, s'', o) := grains_loop n k s' false f p'' in (i :: l, s'', o)
          end
      end
  end.

(** GSFDecoder.__enter__ (gsf.py 1398-1406; __aenter__, 1412-1425): read the headers; then iterate over the grains. *)
Definition decode_file (k : cfg) (f : file) : res (sess * (list item * sess * outcome)) :=
  match decode_file_headers false f 0 with
  | Err e => Err e
  | Ok (s, p) => Ok (s, grains_loop (fuel_of f) k s false f p)
  end.
