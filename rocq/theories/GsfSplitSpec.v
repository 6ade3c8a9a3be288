(** A reader that knows nothing but (4-byte tag, 4-byte little-endian size): used to state that all size fields
    written are exact. *)
From Verif Require Import Base Utf8 GsfPrim GsfBlock GsfDecode CogEnums GsfEncode GsfSpec GsfEncState GsfEncSpec.

Definition le32 (a b c d : Z) : Z := a + 256 * b + 65536 * c + 16777216 * d.

(** Split bytes into blocks; every block must fit in what is left, and nothing may be left over. [fuel] bounds the
    number of blocks. *)
Fixpoint split_blocks (fuel : nat) (l : bytes) : option (list block) :=
  match fuel, l with
  | _, [] => Some []
  | S k, t0 :: t1 :: t2 :: t3 :: s0 :: s1 :: s2 :: s3 :: rest =>
      let size := le32 s0 s1 s2 s3 - 8 in
      if (0 <=? size) && (size <=? zlen rest) then
        match split_blocks k (zskip size rest) with
        | Some bl => Some (([t0; t1; t2; t3], zfirst size rest) :: bl)
        | None => None
        end
      else None
  | _, _ => None
  end.
Definition split (l : bytes) : option (list block) := split_blocks (S (List.length l)) l.

(** The fixed fields before the nested blocks of each kind of block that has nested blocks. *)
Definition fixed_size (major : Z) (t : str) : option Z :=
  if zlist_eqb t T_head then Some 23 else
  if zlist_eqb t T_segm then Some 26 else
  if zlist_eqb t T_grai then Some 2 else
  if zlist_eqb t T_gbhd then Some (if major =? 7 then 84 else 70) else
  if zlist_eqb t T_vghd then Some 36 else
  if zlist_eqb t T_cghd then Some 29 else None.

(** All nested sizes are exact. *)
Inductive Exact (major : Z) : block -> Prop :=
| Ex_leaf t pl : fixed_size major t = None -> Exact major (t, pl)
| Ex_node t pl off bl : fixed_size major t = Some off -> off <= zlen pl ->
    split (zskip off pl) = Some bl -> Forall (Exact major) bl -> Exact major (t, pl).

(** Encoder states and grains whose ids have the right length, whose grains' length is that of their data, and whose
    blocks' sizes fit their fields. *)
Definition eseg_ids (s : eseg) : Prop :=
  zlen (es_id s) = 16 /\
  match es_flow s with Some x => zlen (ef_src x) = 16 /\ zlen (ef_flow x) = 16 | None => True end.
Definition head_sized (id : bytes) (created : datetime) (segs : list (eseg * Z)) (tags : list (str * str)) : Prop :=
  zlen id = 16 /\ Forall (fun sc => eseg_ids (fst sc)) segs /\ zlen (enc_head id created segs tags) < 4294967296.
Definition grain_sized (major : Z) (lg : Z * grain) : Prop :=
  zlen (g_src (snd lg)) = 16 /\ zlen (g_flow (snd lg)) = 16 /\ g_len (snd lg) = zlen (opt_bytes (g_data (snd lg))) /\
  encodable major lg /\ zlen (gbytes major lg) < 4294967296.

(** A file of [n] grains whose sizes are all exact: 12 bytes, then blocks read by their sizes alone - the head and [n]
    grains, all nested sizes exact too - then the 8 bytes of the terminator, and nothing else. *)
Definition sized_file (major : Z) (n : nat) (data : bytes) : Prop :=
  exists start body hp gl, data = start ++ body ++ (T_grai ++ [0; 0; 0; 0]) /\ zlen start = 12 /\
    split body = Some ((T_head, hp) :: gl) /\ length gl = n /\ Forall (fun b => fst b = T_grai) gl /\
    Forall (Exact major) ((T_head, hp) :: gl).
