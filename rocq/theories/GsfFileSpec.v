(** Specification of whole GSF files as sequences of top-level pieces, and of the grains they contain. *)
From Verif Require Import Base Utf8 GsfPrim GsfBlock GsfDecode CogEnums GsfEncode GsfPrimProofs GsfBlockProofs GsfSpec.

(** A file is a header followed by pieces: a grain, a block of another kind, an end-of-stream marker, or (in a
    concatenation) the header of the next file. *)
Inductive piece :=
| PGrain (local : Z) (g : grain) (payload : bytes) (data_off : Z)
| POther (c : block)
| PEnd
| PFile (major minor : Z) (pre : list block) (head_payload : bytes) (h : head).

Definition header_bytes (major minor : Z) (pre : list block) (head_payload : bytes) : bytes :=
  T_SSBB ++ T_grsg ++ enc_uint 2 major ++ enc_uint 2 minor ++ blocks pre ++ enc_block T_head head_payload.

Definition piece_bytes (pc : piece) : bytes :=
  match pc with
  | PGrain _ _ pl _ => enc_block T_grai pl
  | POther c => enc_blk c
  | PEnd => T_grai ++ [0; 0; 0; 0]
  | PFile major minor pre hpl _ => header_bytes major minor pre hpl
  end.

Definition pieces_bytes (ps : list piece) : bytes := flat_map piece_bytes ps.

(** A well-formed header: supported version, unknown blocks before the head block allowed, head block with exact
    sizes describing [h]. *)
Definition header_ok (major minor : Z) (pre : list block) (hpl : bytes) (h : head) : Prop :=
  (major = 7 \/ major = 8 \/ major = 9) /\ u16 minor /\
  Forall (unknown_in [T_head]) pre /\ Forall (fun c => small_payload (snd c)) pre /\
  small_payload hpl /\
  exists id created segs tags, HeadPayload id created segs tags hpl h.

(** [Pieces major ps]: the pieces are well-formed, each grain written in the version of the file it is in. *)
Inductive Pieces : Z -> list piece -> Prop :=
| Pc_nil major : Pieces major []
| Pc_grain major local g pl off ps :
    u16 local -> grain_ok g -> small_payload pl -> GraiPayload major local g pl off ->
    Pieces major ps -> Pieces major (PGrain local g pl off :: ps)
| Pc_other major c ps :
    unknown_in [T_grai] c -> small_payload (snd c) -> Pieces major ps -> Pieces major (POther c :: ps)
| Pc_end major ps : Pieces major ps -> Pieces major (PEnd :: ps)
| Pc_file major major' minor pre hpl h ps :
    header_ok major' minor pre hpl h -> Pieces major' ps -> Pieces major (PFile major' minor pre hpl h :: ps).

(** What the payload of a grain is presented as: absent when empty or in the never-load mode, deferred when
    asked for and the stream can seek backwards, otherwise the bytes. [pos] is where the data is in the file. *)
Definition payload_of (k : cfg) (d : bytes) (pos : Z) : payload :=
  match d with
  | [] => PNone
  | _ =>
      match k_mode k with
      | LoadNever => PNone
      | LoadImmediately => PBytes d
      | LoadDefer => if k_back k then (if k_lazy k then PLazy pos (zlen d) true else PIOBytes pos (zlen d)) else PBytes d
      | DeferLoad => if k_back k then (if k_lazy k then PLazy pos (zlen d) false else PIOBytes pos (zlen d)) else PBytes d
      end
  end.

Definition wanted (ids : option (list Z)) (local : Z) : Prop :=
  match ids with None => True | Some l => In local l end.

(** [Yields k s p ps l s']: reading pieces [ps] placed at offset [p] with session state [s] produces the items [l]
    and leaves the state [s']. *)
Inductive Yields (k : cfg) : sess -> Z -> list piece -> list item -> sess -> Prop :=
| Y_nil s p : Yields k s p [] [] s
| Y_grain s p local g pl off ps l s' :
    wanted (k_ids k) local ->
    Yields k s (p + zlen (enc_block T_grai pl)) ps l s' ->
    Yields k s p (PGrain local g pl off :: ps)
      (mkItem (meta_of (s_major s) g) (payload_of k (opt_bytes (g_data g)) (p + 8 + off)) local :: l) s'
| Y_filtered s p local g pl off ps l s' :
    ~ wanted (k_ids k) local ->
    Yields k s (p + zlen (enc_block T_grai pl)) ps l s' ->
    Yields k s p (PGrain local g pl off :: ps) l s'
| Y_other s p c ps l s' :
    Yields k s (p + zlen (enc_blk c)) ps l s' -> Yields k s p (POther c :: ps) l s'
| Y_end s p ps l s' :
    k_concat k = true -> Yields k s (p + 8) ps l s' -> Yields k s p (PEnd :: ps) l s'
| Y_end_stop s p ps : k_concat k = false -> Yields k s p (PEnd :: ps) [] s
| Y_file s p major minor pre hpl h ps l s' :
    k_concat k = true ->
    Yields k (mkSess major minor (Some h)) (p + zlen (header_bytes major minor pre hpl)) ps l s' ->
    Yields k s p (PFile major minor pre hpl h :: ps) l s'
| Y_file_stop s p major minor pre hpl h ps :
    k_concat k = false -> Yields k s p (PFile major minor pre hpl h :: ps) [] s.

(** Whether reading stops inside the pieces (concatenation support switched off). *)
Definition is_stop (pc : piece) : bool := match pc with PEnd | PFile _ _ _ _ _ => true | _ => false end.
Definition stops (k : cfg) (ps : list piece) : bool := negb (k_concat k) && existsb is_stop ps.

(** ---------------------------------------------------------------- the logical contents of a file *)

(** A grain as a reader should see it: metadata, payload bytes, local id of its segment. *)
Definition shown := (gmeta * bytes * Z)%type.

Definition shown_local (x : shown) : Z := snd x.

(** The grains of the pieces in order; without concatenation support everything after the first end marker or
    further file header is ignored. *)
Fixpoint contents (concat : bool) (major : Z) (ps : list piece) : list shown :=
  match ps with
  | [] => []
  | PGrain local g _ _ :: t => (meta_of major g, opt_bytes (g_data g), local) :: contents concat major t
  | POther _ :: t => contents concat major t
  | PEnd :: t => if concat then contents concat major t else []
  | PFile major' _ _ _ _ :: t => if concat then contents concat major' t else []
  end.

(** The headers in force after reading the pieces. *)
Fixpoint final_sess (concat : bool) (s : sess) (ps : list piece) : sess :=
  match ps with
  | [] => s
  | PGrain _ _ _ _ :: t | POther _ :: t => final_sess concat s t
  | PEnd :: t => if concat then final_sess concat s t else s
  | PFile major minor _ _ h :: t => if concat then final_sess concat (mkSess major minor (Some h)) t else s
  end.

Definition in_ids (ids : option (list Z)) (local : Z) : bool :=
  match ids with None => true | Some l => existsb (Z.eqb local) l end.

(** The bytes a payload stands for, given the contents of the input. *)
Definition slice (data : bytes) (pos len : Z) : bytes := zfirst len (zskip pos data).
Definition loaded (data : bytes) (p : payload) : bytes :=
  match p with
  | PNone => []
  | PBytes d => d
  | PIOBytes pos len | PLazy pos len _ => slice data pos len
  end.

Definition view (data : bytes) (i : item) : shown := (i_meta i, loaded data (i_data i), i_local i).

(** The payload is dropped in the never-load mode. *)
Definition mode_data (m : lmode) (x : shown) : shown :=
  match m with LoadNever => (fst (fst x), [], snd x) | _ => x end.

(** Which form the payload takes in an input with the contents [data]: deferred payloads are not empty and say how
    long they are. *)
Inductive payload_form (k : cfg) (data : bytes) : payload -> Prop :=
| PF_none : payload_form k data PNone
| PF_now d : (k_mode k = LoadImmediately \/ (k_mode k <> LoadNever /\ k_back k = false)) -> d <> [] ->
    payload_form k data (PBytes d)
| PF_io pos len : (k_mode k = LoadDefer \/ k_mode k = DeferLoad) -> k_back k = true -> k_lazy k = false ->
    0 < len -> zlen (slice data pos len) = len -> payload_form k data (PIOBytes pos len)
| PF_lazy pos len : (k_mode k = LoadDefer \/ k_mode k = DeferLoad) -> k_back k = true -> k_lazy k = true ->
    0 < len -> zlen (slice data pos len) = len -> payload_form k data (PLazy pos len (match k_mode k with LoadDefer => true | _ => false end)).

(** A complete file. *)
Record gsf_file := mkGsf {
  gf_major : Z; gf_minor : Z; gf_pre : list block; gf_head_payload : bytes; gf_head : head; gf_pieces : list piece }.

Definition gsf_bytes (x : gsf_file) : bytes :=
  header_bytes (gf_major x) (gf_minor x) (gf_pre x) (gf_head_payload x) ++ pieces_bytes (gf_pieces x).
Definition gsf_ok (x : gsf_file) : Prop :=
  header_ok (gf_major x) (gf_minor x) (gf_pre x) (gf_head_payload x) (gf_head x) /\ Pieces (gf_major x) (gf_pieces x).
Definition gsf_sess (x : gsf_file) : sess := mkSess (gf_major x) (gf_minor x) (Some (gf_head x)).

(** The grains of the segments asked for. *)
Definition select (ids : option (list Z)) (l : list shown) : list shown :=
  filter (fun x => in_ids ids (shown_local x)) l.

(** A single complete file: its pieces contain no further file header. *)
Definition is_file (pc : piece) : bool := match pc with PFile _ _ _ _ _ => true | _ => false end.
Definition single (x : gsf_file) : Prop := Forall (fun pc => is_file pc = false) (gf_pieces x).

(** Reading [data] gives the header [s0], the grains [v] (payload forms as the mode says), ends normally and
    leaves the session with the header [s]. *)
Definition decodes_to (k : cfg) (strict fwd : bool) (data : bytes) (s0 s : sess) (v : list shown) : Prop :=
  exists l, decode_file k (mkFile data 0 strict fwd) = Ok (s0, (l, s, Done)) /\ map (view data) l = v /\
            Forall (fun i => payload_form k data (i_data i)) l.

(** What a piece cut short by the end of the input may contribute: nothing, or its grain with complete metadata
    and a prefix of its data. *)
Inductive cut_grain (ids : option (list Z)) (major : Z) : piece -> list shown -> Prop :=
| CG_none pc : cut_grain ids major pc []
| CG_part local g pl off d :
    in_ids ids local = true ->
    (exists t, opt_bytes (g_data g) = d ++ t) ->
    cut_grain ids major (PGrain local g pl off) [(meta_of major g, d, local)].

(** ---------------------------------------------------------------- normal form *)

(** The grain's own metadata, field by field. *)
Definition meta_raw (g : grain) : gmeta :=
  mkMeta (g_src g) (g_flow g) (g_origin g) (g_sync g) (g_rate g) (g_dur g)
         (match g_tils g with [] => None | l => Some l end)
         (match g_body g with
          | BEmpty => TEmpty | BVideo _ => TVideo | BCoded _ => TCoded | BAudio _ => TAudio
          | BCAudio _ => TCAudio | BEvent => TEvent end)
         (match g_body g with BVideo v => Some v | _ => None end)
         (match g_body g with BCoded c => Some c | _ => None end)
         (match g_body g with BAudio a => Some a | _ => None end)
         (match g_body g with BCAudio a => Some a | _ => None end).

(** A time label whose rate is in lowest terms (zero being 0/1). *)
Definition til_normal (t : til) : Prop :=
  (tl_num t = 0 /\ tl_den t = 1) \/ (0 < tl_num t /\ 0 < tl_den t /\ Z.gcd (tl_num t) (tl_den t) = 1).

(** Components laid end to end. *)
Fixpoint tiled (off : Z) (l : list comp) : Prop :=
  match l with [] => True | c :: t => co_offset c = off /\ tiled (off + co_length c) t end.

(** Grains that come back unchanged: version 7 has no sign for timestamps; versions before 9 cannot express an absent
    key-frame flag or temporal offset and version 9 uses 0x7fffffff for the latter; an empty list of unit offsets or
    a zero aspect ratio cannot be told from an absent one. *)
Definition normal_form (major : Z) (g : grain) : Prop :=
  (major = 7 -> 0 <= g_origin g /\ 0 <= g_sync g) /\
  Forall til_normal (g_tils g) /\
  match g_body g with
  | BVideo v =>
      tiled 0 (v_comps v) /\
      match v_sar v with Some x => fst x <> 0 | None => True end /\
      match v_par v with Some x => fst x <> 0 | None => True end
  | BCoded c =>
      (major < 9 -> c_key c <> None /\ c_temporal c <> None) /\
      (9 <= major -> c_temporal c <> Some 2147483647) /\
      c_units c <> Some []
  | _ => True
  end.

(** ---------------------------------------------------------------- files up to unknown blocks *)

(** What a piece says, leaving out how it is laid out. *)
Inductive skeleton := KGrain (local : Z) (g : grain) | KEnd | KFile (major minor : Z) (h : head) | KNone.
Definition skel (pc : piece) : skeleton :=
  match pc with
  | PGrain local g _ _ => KGrain local g
  | POther _ => KNone
  | PEnd => KEnd
  | PFile major minor _ _ h => KFile major minor h
  end.
Definition keep (pc : piece) : bool := match pc with POther _ => false | _ => true end.

(** The same file up to unknown blocks at top level and inside blocks. *)
Definition same_logical (x y : gsf_file) : Prop :=
  gf_major x = gf_major y /\ gf_minor x = gf_minor y /\ gf_head x = gf_head y /\
  map skel (filter keep (gf_pieces x)) = map skel (filter keep (gf_pieces y)).

Definition with_pieces (x : gsf_file) (ps : list piece) : gsf_file :=
  mkGsf (gf_major x) (gf_minor x) (gf_pre x) (gf_head_payload x) (gf_head x) ps.
