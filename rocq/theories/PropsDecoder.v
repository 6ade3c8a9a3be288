(** C74: the decoder object: its sessions, its older methods, and files read one after the other. *)
From Coq Require Import Lia.
From Verif Require Import Base GsfPrim GsfBlock GsfDecode GsfEncode GsfSpec GsfExamples GsfFileSpec GsfGroup GsfGroupProofs Decoder DecoderSpec
  DecoderProofs DecoderExample.

(** decode of bytes is load of those bytes, whatever was done with the decoder before. *)
Theorem C74_decode : forall d s,
  snd (decode d (Some s)) =
    (match load (d_concat d) true true false (mkFile s 0 false false) with Ok (h, l) => Groups h l | Err e => Raises e end) /\
  (forall h l, snd (decode d (Some s)) = Groups h l -> d_session (fst (decode d (Some s))) = None).
Proof. exact decode_bytes. Qed.
Print Assumptions C74_decode.

(** Two files one after the other, to a decoder that failed before. *)
Example C74_decode_ex :
  map ex_locals (snd (do_calls (mkDecoder None None true)
    [CHeaders; CDecode (Some [1; 2; 3]); CDecode (Some (gsf_bytes ex_file ++ gsf_bytes ex_file9))])) = [[]; []; [1; 2]] /\
  snd (do_calls (mkDecoder None None true) [CHeaders; CDecode (Some [1; 2; 3])]) = [Raises EType; Raises EEof].
Proof. vm_compute. split; reflexivity. Qed.

(** Without support for concatenations, successive calls of decode give complete files one after the other, wherever the file
    was positioned and whatever follows, and leave the file after the last. *)
Theorem C74_in_turn : forall xs before rest s0, Forall complete xs ->
  exists rs, Forall2 told xs rs /\
    do_calls (mkDecoder (Some (before ++ flat_map gsf_bytes xs ++ rest, Some (zlen before))) s0 false) (repeat (CDecode None) (List.length xs)) =
    (mkDecoder (Some (before ++ flat_map gsf_bytes xs ++ rest, Some (zlen (before ++ flat_map gsf_bytes xs))))
       (match xs with [] => s0 | _ => None end) false, rs).
Proof. exact in_turn. Qed.
Print Assumptions C74_in_turn.

Example C74_in_turn_ex : Forall complete [ex_file; ex_file9] /\
  map ex_locals (snd (do_calls (ex_dec (gsf_bytes ex_file ++ gsf_bytes ex_file9) false) [CDecode None; CDecode None])) = [[1; 2]; [2]].
Proof. split; [exact (Forall_cons _ ex_file_complete (Forall_cons _ ex_file9_complete (Forall_nil _)))|]. vm_compute. reflexivity. Qed.

(** For that the end markers are needed: where there is none the tag of the next file is read as well, and the next file can no
    longer be. *)
Theorem C74_no_end_marker_refuted : exists x y, gsf_ok x /\ complete y /\
  match snd (do_calls (ex_dec (gsf_bytes x ++ gsf_bytes y) false) [CDecode None; CDecode None]) with
  | [r1; r2] => ex_locals r1 = [2] /\ r2 = Raises EBadType
  | _ => False
  end.
Proof.
  exists ex_open9, ex_file. split; [exact ex_open9_ok|]. split; [exact ex_file_complete|]. vm_compute. split; reflexivity.
Qed.
Print Assumptions C74_no_end_marker_refuted.

(** Grains may be taken in portions, each from a new generator: none is lost or given twice, the last portion ends as reading
    everything ends, and leaves the decoder as that does. *)
Theorem C74_portions : forall ids skip lazy ns data p s c l e, 0 <= p ->
  let d := mkDecoder (Some (data, Some p)) (Some s) c in
  snd (old_grains d ids skip lazy None) = Grains l e ->
  (fold_right Nat.add O ns <= List.length l)%nat ->
  do_calls d (map (fun n => CGrains ids skip lazy (Some n)) ns ++ [CGrains ids skip lazy None]) =
  (fst (old_grains d ids skip lazy None), portions ns l e).
Proof. exact in_portions. Qed.
Print Assumptions C74_portions.

Example C74_portions_ex :
  map ex_locals (snd (do_calls (ex_dec (gsf_bytes ex_file ++ gsf_bytes ex_file9) true)
    [CHeaders; CGrains None false false (Some 2%nat); CGrains None true false (Some 0%nat); CGrains None false true (Some 1%nat); CGrains None false false None])) =
  [[]; [1; 2]; []; [2]; [2]].
Proof. vm_compute. reflexivity. Qed.

(** The older methods read the header and the grains asked for: with their data unless it is to be skipped, later if it is to
    be loaded lazily, in which case nothing is skipped. *)
Theorem C74_old_methods : forall x s0 c ids skip lazy, gsf_ok x ->
  exists l,
    snd (do_calls (mkDecoder (Some (gsf_bytes x, Some 0)) s0 c) [CHeaders; CGrains ids skip lazy None]) =
      [Header (gf_head x); Grains l Ended] /\
    map (view (gsf_bytes x)) l =
      map (if skip && negb lazy then without_data else (fun x => x)) (select ids (contents c (gf_major x) (gf_pieces x))) /\
    Forall (fun i => if lazy then later (i_data i) else at_once (i_data i)) l.
Proof. exact old_grains_read. Qed.
Print Assumptions C74_old_methods.

Example C74_old_methods_ex :
  match snd (do_calls (ex_dec (gsf_bytes ex_file) true) [CHeaders; CGrains (Some [1]) true true None]) with
  | [Header _; Grains [i] Ended] =>
      loaded (gsf_bytes ex_file) (i_data i) = [1; 2; 3; 4; 5; 6; 7; 8; 9; 10] /\ match i_data i with PIOBytes _ 10 => True | _ => False end
  | _ => False
  end.
Proof. vm_compute. split; [reflexivity|exact I]. Qed.

(** They need a session; decode closes its own. *)
Theorem C74_needs_session : forall d ids skip lazy limit,
  (snd (old_grains d ids skip lazy limit) = Raises ERuntime <-> d_session d = None) /\
  (d_session d = None -> fst (old_grains d ids skip lazy limit) = d) /\
  (forall s h l, snd (decode d s) = Groups h l ->
     snd (old_grains (fst (decode d s)) ids skip lazy limit) = Raises ERuntime).
Proof. exact needs_session. Qed.
Print Assumptions C74_needs_session.

Example C74_needs_session_ex :
  snd (do_calls (ex_dec (gsf_bytes ex_file9) true) [CGrains None false false None; CHeaders; CLeave; CGrains None false false None]) =
  [Raises ERuntime; Header (gf_head ex_file9); Nothing; Raises ERuntime].
Proof. vm_compute. reflexivity. Qed.

(** But they do not need one that was opened with success: the grains of a file whose version was refused are read all the
    same, whatever the version. *)
Theorem C74_refused_read : forall major minor ps s0 c ids skip lazy, u16 major -> u16 minor -> ~ (major = 7 \/ major = 8 \/ major = 9) ->
  Pieces major ps ->
  exists l,
    snd (do_calls (mkDecoder (Some (refused_bytes major minor ps, Some 0)) s0 c) [CHeaders; CGrains ids skip lazy None]) =
      [Raises EBadVersion; Grains l Ended] /\
    map (view (refused_bytes major minor ps)) l =
      map (if skip && negb lazy then without_data else (fun x => x)) (select ids (contents c major ps)).
Proof. exact refused_read. Qed.
Print Assumptions C74_refused_read.

Example C74_refused_read_ex : Pieces 6 ex_six /\
  match snd (do_calls (ex_dec (refused_bytes 6 1 ex_six) true) [CHeaders; CGrains None false false None]) with
  | [Raises EBadVersion; Grains l Ended] => map i_local l = [2; 3] /\ map i_data l = [PBytes [9; 8; 7; 6; 5; 4]; PNone]
  | _ => False
  end.
Proof. split; [exact ex_six_ok|]. vm_compute. split; reflexivity. Qed.
