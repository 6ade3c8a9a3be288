(** Specification of what a decoder object answers. *)
From Verif Require Import Base GsfPrim GsfBlock GsfDecode GsfEncode GsfSpec GsfFileSpec GsfGroup GsfGroupProofs Decoder.

(** A complete file: its end marker is its last piece, and it contains no further file. *)
Definition complete (x : gsf_file) : Prop :=
  gsf_ok x /\ exists a, gf_pieces x = a ++ [PEnd] /\ Forall (fun pc => is_stop pc = false) a.

(** The answer for a file: its header and its grains, by the local ids of their segments. *)
Definition told (x : gsf_file) (r : reply) : Prop :=
  exists l, r = Groups (gf_head x) l /\ seen_groups l = group (map by_local (contents true (gf_major x) (gf_pieces x))).

(** Grains handed out in portions: the replies, the last of which takes the rest. *)
Fixpoint portions (ns : list nat) (l : list item) (e : halt) : list reply :=
  match ns with
  | [] => [Grains l e]
  | n :: ns => Grains (firstn n l) Waiting :: portions ns (skipn n l) e
  end.

(** The payload is there, or comes later. *)
Definition at_once (p : payload) : Prop := match p with PNone | PBytes _ => True | _ => False end.
Definition later (p : payload) : Prop := match p with PNone | PIOBytes _ _ => True | _ => False end.
Definition without_data (x : shown) : shown := (fst (fst x), [], snd x).

(** A file whose version is not supported: a header as usual, with blocks and grains as that version writes them. *)
Definition refused_bytes (major minor : Z) (ps : list piece) : bytes :=
  T_SSBB ++ T_grsg ++ enc_uint 2 major ++ enc_uint 2 minor ++ pieces_bytes ps.
