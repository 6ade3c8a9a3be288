(** Properties C23 to C26: deferred data and asynchronous files. *)
From Verif Require Import Base GsfPrim GsfDecode GsfFileSpec GsfExamples PySlice AsyncBytes AsyncBytesSpec AsyncBytesProofs AsyncStream
  AsyncStreamSpec AsyncStreamProofs IoBytes IoBytesSpec IoBytesProofs LazyGrains LazySpec LazyProofs LazyFile.

(** C23. A deferred byte string: lengths and contents, in any history in which somebody else moves and changes the
    stream; the stream is left as the other user has it; and it is touched exactly once, at the first use. *)
Theorem C23_deferred_bytes : forall start length data pos ops, 0 <= start -> 0 <= length ->
  let x := fst (io_run (io_new start length data pos) ops) in
  snd (io_run (io_new start length data pos) ops) = io_expect start length data None ops /\
  (io_data x, io_pos x) = others data pos ops /\ io_log x = io_accesses start length pos ops.
Proof. exact io_behaves. Qed.
Print Assumptions C23_deferred_bytes.

Theorem C23_length : forall data start length, 0 <= start -> 0 <= length ->
  zlen (region data start length) = length <-> length = 0 \/ start + length <= zlen data.
Proof. exact io_region_length. Qed.
Print Assumptions C23_length.

Theorem C23_negative_start : forall start length data pos, start < 0 ->
  let (x, r) := io_get (io_new start length data pos) in
  r = Err EValue /\ io_pos x = pos /\ io_object x = None.
Proof. exact io_negative_start. Qed.
Print Assumptions C23_negative_start.

Example C23_example :
  snd (io_run (io_new 2 3 [10; 11; 12; 13; 14; 15] 5) [IoLen; IoMove 1; IoGet; IoChange [0]; IoGet; IoLen]) =
    [Ok (IoNum 3); Ok IoUnit; Ok (IoBytesOut [12; 13; 14]); Ok IoUnit; Ok (IoBytesOut [12; 13; 14]); Ok (IoNum 3)] /\
  io_log (fst (io_run (io_new 2 3 [10; 11; 12; 13; 14; 15] 5) [IoLen; IoMove 1; IoGet; IoChange [0]; IoGet; IoLen])) =
    [ATellAt; ASeekTo 2; AReadN 3; ASeekTo 1].
Proof. vm_compute. split; reflexivity. Qed.

(** The announced length changes when the stream ends early. *)
Example C23_short_example :
  snd (io_run (io_new 4 3 [10; 11; 12; 13; 14] 0) [IoLen; IoGet; IoLen]) = [Ok (IoNum 3); Ok (IoBytesOut [14]); Ok (IoNum 1)].
Proof. vm_compute. reflexivity. Qed.

(** C24. While the session is open, awaiting the deferred grains of a file in any order, any number of times and
    interleaved with the iteration gives the payloads that immediate loading gives, and the position of the file is
    always where the iteration left it. *)
Theorem C24_awaits_give_the_payloads : forall k k' x strict fwd strict' fwd', gsf_ok x -> lazy_cfg k -> k_mode k' = LoadImmediately ->
  k_ids k = k_ids k' -> k_concat k = k_concat k' ->
  exists l l' s,
    decode_file k (mkFile (gsf_bytes x) 0 strict fwd) = Ok (gsf_sess x, (l, s, Done)) /\
    decode_file k' (mkFile (gsf_bytes x) 0 strict' fwd') = Ok (gsf_sess x, (l', s, Done)) /\
    forall pos ops, Forall (inside (length (payloads l'))) ops ->
    let '(t, rs) := lz_run (ls_new (gsf_bytes x) strict pos (lz_of l)) ops in
    rs = map (eager_result (payloads l')) ops /\ ls_pos t = last_pos pos ops /\
    forall i d, nth_error (payloads l') i = Some d -> data_of t i = Some (if awaited ops i then Some d else None).
Proof. exact lazy_file. Qed.
Print Assumptions C24_awaits_give_the_payloads.

(** The same for any table of deferred grains whose data can be read. *)
Theorem C24_open : forall file strict pos gs ops, Forall untouched gs -> Forall (readable file strict) gs ->
  Forall (inside (length gs)) ops ->
  let '(s, rs) := lz_run (ls_new file strict pos gs) ops in
  rs = map (while_open file gs) ops /\ ls_pos s = last_pos pos ops /\
  (forall i g, nth_error gs i = Some g -> data_of s i = Some (if awaited ops i then Some (lz_bytes file g) else None)).
Proof. exact lazy_open. Qed.
Print Assumptions C24_open.

(** Leaving the session when every grain not awaited is in the cancel mode: it succeeds, the data of a grain is what it was
    if it had been awaited and absent for good otherwise (a further await is an error). *)
Theorem C24_closed : forall file strict pos gs ops ops2, Forall untouched gs -> Forall (readable file strict) gs ->
  Forall (inside (length gs)) ops -> Forall (inside (length gs)) ops2 ->
  (forall i g, nth_error gs i = Some g -> awaited ops i = false -> lz_exit g = false) ->
  let '(s, rs) := lz_run (ls_new file strict pos gs) (ops ++ LExit :: ops2) in
  rs = map (while_open file gs) ops ++ Ok None :: map (once_closed file gs ops) ops2 /\
  ls_pos s = last_pos pos (ops ++ ops2) /\
  (forall i g, nth_error gs i = Some g -> data_of s i = Some (if awaited ops i then Some (lz_bytes file g) else None)).
Proof. exact lazy_closed. Qed.
Print Assumptions C24_closed.

(** Leaving the session in the load-on-exit mode with any grain not awaited: it always raises RuntimeError, having
    loaded the first of them only. *)
Theorem C24_load_on_exit_refuted : forall file strict pos gs ops k g, Forall untouched gs -> Forall (readable file strict) gs ->
  Forall (inside (length gs)) ops -> nth_error gs k = Some g -> lz_exit g = true ->
  awaited ops k = false -> (forall j, (j < k)%nat -> awaited ops j = true) ->
  let '(s, rs) := lz_run (ls_new file strict pos gs) (ops ++ [LExit]) in
  rs = map (while_open file gs) ops ++ [Err ERuntime] /\
  (forall i g, nth_error gs i = Some g ->
     data_of s i = Some (if awaited ops i || Nat.eqb i k then Some (lz_bytes file g) else None)).
Proof. exact lazy_exit_load. Qed.
Print Assumptions C24_load_on_exit_refuted.

Example C24_example :
  let file := [10; 11; 12; 13; 14; 15; 16; 17] in
  let gs := [mkLz 1 2 false None false; mkLz 4 3 false None false; mkLz 0 1 false None false] in
  let '(s, rs) := lz_run (ls_new file true 8 gs) [LAwait 1; LMove 3; LAwait 0; LAwait 1; LExit; LAwait 2; LAwait 0] in
  rs = [Ok (Some [14; 15; 16]); Ok None; Ok (Some [11; 12]); Ok (Some [14; 15; 16]); Ok None; Err ERuntime; Ok (Some [11; 12])] /\
  map lz_data (ls_grains s) = [Some [11; 12]; Some [14; 15; 16]; None] /\ ls_pos s = 3.
Proof. vm_compute. repeat split; reflexivity. Qed.

Example C24_load_on_exit_example :
  let gs := [mkLz 0 2 true None false; mkLz 2 2 true None false] in
  let '(s, rs) := lz_run (ls_new [1; 2; 3; 4] false 4 gs) [LExit] in
  rs = [Err ERuntime] /\ map lz_data (ls_grains s) = [Some [1; 2]; None].
Proof. vm_compute. split; reflexivity. Qed.

(** A deferred grain of a file example: the number of deferred grains and what they are. *)
Example C24_file_example :
  match decode_file (mkCfg None DeferLoad true true true true) (ex_in (gsf_bytes ex_file)) with
  | Ok (_, (l, _, Done)) =>
      snd (lz_run (ls_new (gsf_bytes ex_file) true 0 (lz_of l)) [LAwait 1; LAwait 0; LAwait 1]) =
        [Ok (Some [9; 8; 7; 6; 5; 4]); Ok (Some [1; 2; 3; 4; 5; 6; 7; 8; 9; 10]); Ok (Some [9; 8; 7; 6; 5; 4])]
  | _ => False
  end.
Proof. vm_compute. reflexivity. Qed.

(** Two grains awaited at the same time: the second seek comes before the first read, and the first grain gets the
    wrong bytes. Every task's own steps are in order. *)
Theorem C24_concurrent_refuted :
  exists file t0 t1 sched,
    filter (fun a => match a with CSeek 0 | CRead 0 | CBack 0 => true | _ => false end) sched = [CSeek 0%nat; CRead 0%nat; CBack 0%nat] /\
    filter (fun a => match a with CSeek 1 | CRead 1 | CBack 1 => true | _ => false end) sched = [CSeek 1%nat; CRead 1%nat; CBack 1%nat] /\
    option_map ct_data (nth_error (snd (fold_left (cstep file) sched (0, [t0; t1]))) 0) <> Some (Some (region file (ct_pos t0) (ct_len t0))).
Proof.
  exists [1; 2; 3; 4], (mkCt 0 2 0 None), (mkCt 2 2 0 None),
    [CSeek 0%nat; CSeek 1%nat; CRead 0%nat; CRead 1%nat; CBack 0%nat; CBack 1%nat].
  vm_compute. repeat split; discriminate.
Qed.
Print Assumptions C24_concurrent_refuted.

(** Awaits that do not overlap, in any order and any number of times: every grain gets its own bytes, and the position is left alone. *)
Theorem C24_serial : forall file order pos ts, (forall i, In i order -> nth_error ts i <> None) ->
  exists ts', fold_left (cstep file) (flat_map one_await order) (pos, ts) = (pos, ts') /\
    forall i, match nth_error ts i, nth_error ts' i with
              | Some t, Some t' => ct_pos t' = ct_pos t /\ ct_len t' = ct_len t /\
                                   ct_data t' = (if existsb (Nat.eqb i) order then Some (region file (ct_pos t) (ct_len t)) else ct_data t)
              | None, None => True | _, _ => False end.
Proof. exact serial_awaits. Qed.
Print Assumptions C24_serial.
Example C24_serial_ex : fold_left (cstep [1; 2; 3; 4]) (flat_map one_await [1; 0; 1]%nat) (3, [mkCt 0 2 0 None; mkCt 2 2 0 None; mkCt 0 1 0 None]) =
  (3, [mkCt 0 2 3 (Some [1; 2]); mkCt 2 2 3 (Some [3; 4]); mkCt 0 1 0 None]).
Proof. vm_compute. reflexivity. Qed.

(** A strict file that ends inside the data: the await fails and the position is not restored, so the iteration goes on
    in the wrong place. *)
Theorem C24_position_refuted :
  exists file pos g, 0 <= lz_pos g /\
    let '(s, rs) := lz_run (ls_new file true pos [g]) [LAwait 0] in rs = [Err EEof] /\ ls_pos s <> pos.
Proof. exists [1; 2; 3; 4], 0, (mkLz 2 5 false None false). vm_compute. repeat split; discriminate. Qed.
Print Assumptions C24_position_refuted.

(** C25. The in-memory asynchronous file is an ideal file. *)
Theorem C25_refines_ideal_file : forall b ops, Fair (mkId b 0) false ops ->
  snd (ab_run (ab_new b) ops) = snd (id_run (mkId b 0) ops) /\
  ab_pos (fst (ab_run (ab_new b) ops)) = id_pos (fst (id_run (mkId b 0) ops)) /\
  ab_value (fst (ab_run (ab_new b) ops)) = id_data (fst (id_run (mkId b 0) ops)).
Proof. exact bytes_refines. Qed.
Print Assumptions C25_refines_ideal_file.

(** Reading everything gives the right bytes but leaves the position alone. *)
Theorem C25_readall : forall b ops, Fair (mkId b 0) false ops ->
  let a := fst (ab_run (ab_new b) ops) in
  let f := fst (id_run (mkId b 0) ops) in
  ab_step a AReadAll = (a, Ok (OBytes (rest f))) /\ ab_step a (ARead (-1)) = (a, Ok (OBytes (rest f))).
Proof. exact bytes_readall. Qed.
Print Assumptions C25_readall.

Example C25_example :
  let ops := [AWrite [1; 2; 3; 4]; ASeek 1 SeekSet; ARead 2; ASeek 7 SeekSet; AWrite [9]; ASeek (-3) SeekEnd; AReadInto 5;
              ATruncate (Some 6); ATell; ARead 1; ASeek 0 SeekSet; ARead 6; ASeek 1 SeekCur; ARead 0] in
  Fair (mkId [5] 0) false ops /\
  snd (ab_run (ab_new [5]) ops) =
    [Ok (ONum 4); Ok ONone; Ok (OBytes [2; 3]); Ok ONone; Ok (ONum 1); Ok ONone; Ok (OInto 3 [0; 0; 9; 0; 0]);
     Ok (ONum 6); Ok (ONum 8); Err EEof; Ok ONone; Ok (OBytes [1; 2; 3; 4; 0; 0]); Ok ONone; Ok (OBytes [])].
Proof.
  split; [|vm_compute; reflexivity].
  repeat (apply Fr_cons; [vm_compute; repeat split; try discriminate; try (intros; discriminate); auto; try (left; discriminate)|]).
  apply Fr_nil.
Qed.

(** Outside those histories it is not an ideal file: reading everything does not move the position, *)
Theorem C25_readall_refuted :
  snd (ab_run (ab_new [1; 2]) [AReadAll; ATell]) = [Ok (OBytes [1; 2]); Ok (ONum 0)] /\
  snd (id_run (mkId [1; 2] 0) [AReadAll; ATell]) = [Ok (OBytes [1; 2]); Ok (ONum 2)].
Proof. vm_compute. split; reflexivity. Qed.
Print Assumptions C25_readall_refuted.

(** a gap written after the file was made shorter shows the old bytes, *)
Theorem C25_stale_refuted :
  ab_value (fst (ab_run (ab_new [1; 2; 3; 4; 5; 6]) [ATruncate (Some 2); ASeek 4 SeekSet; AWrite [9]])) = [1; 2; 3; 4; 9] /\
  id_data (fst (id_run (mkId [1; 2; 3; 4; 5; 6] 0) [ATruncate (Some 2); ASeek 4 SeekSet; AWrite [9]])) = [1; 2; 0; 0; 9].
Proof. vm_compute. split; reflexivity. Qed.
Print Assumptions C25_stale_refuted.

(** and truncating to more than there is makes a file of that length in name only: reading it gives fewer bytes than
    the length says, without an error. *)
Theorem C25_extend_refuted :
  snd (ab_run (ab_new [1; 2]) [ATruncate (Some 6); AReadInto 6]) = [Ok (ONum 6); Ok (OInto 6 [1; 2])].
Proof. vm_compute. reflexivity. Qed.
Print Assumptions C25_extend_refuted.

(** At a position before the beginning, which no seek refuses, nothing is written and reading everything gives nothing; *)
Theorem C25_negative : forall b ops n d, n < 0 -> let a := fst (ab_run (ab_new b) (ops ++ [ASeek n SeekSet])) in
  ab_run a [AWrite d; ATell; AReadAll; ATell] = (a, [Ok (ONum 0); Ok (ONum n); Ok (OBytes []); Ok (ONum n)]) /\
  ab_value a = ab_value (fst (ab_run (ab_new b) ops)).
Proof. exact bytes_negative. Qed.
Print Assumptions C25_negative.
Example C25_negative_ex : snd (ab_run (ab_new [1; 2; 3; 4]) [ARead 3; ASeek (-2) SeekSet; AWrite [9]; AGetValue]) = [Ok (OBytes [1; 2; 3]); Ok ONone; Ok (ONum 0); Ok (OBytes [1; 2; 3; 4])].
Proof. vm_compute. reflexivity. Qed.
(** but reading some bytes there succeeds with too few of them, or with bytes from the end. *)
Theorem C25_negative_read_refuted :
  snd (ab_run (ab_new [1; 2; 3; 4]) [ASeek (-2) SeekSet; ARead 2; ATell]) = [Ok ONone; Ok (OBytes []); Ok (ONum 0)] /\
  snd (ab_run (ab_new [1; 2; 3; 4]) [ASeek (-2) SeekSet; ARead 1; ATell]) = [Ok ONone; Ok (OBytes [3]); Ok (ONum (-1))].
Proof. vm_compute. split; reflexivity. Qed.
Print Assumptions C25_negative_read_refuted.

(** C26. A forward-only input stream gives what reading the complete contents at the same positions would; going back
    is refused and changes nothing. *)
Theorem C26_reading : forall all ops, Forall not_readall ops ->
  snd (as_run (as_new (Some all) None) ops) = snd (in_run all (mkSpot 0 0) ops).
Proof. exact stream_reads. Qed.
Print Assumptions C26_reading.

Theorem C26_readall : forall all ops, Forall not_readall ops ->
  snd (as_step (fst (as_run (as_new (Some all) None) ops)) SReadAll) =
  snd (in_step all (fst (in_run all (mkSpot 0 0) ops)) SReadAll).
Proof. exact stream_readall. Qed.
Print Assumptions C26_readall.

(** What an output stream has sent is the contents of an ideal file written the same way, gaps filled with zeros. *)
Theorem C26_writing : forall ops,
  let '(c, pos, rs) := out_run [] 0 ops in
  snd (as_run (as_new None (Some [])) ops) = rs /\ as_out (fst (as_run (as_new None (Some [])) ops)) = Some c.
Proof. exact stream_writes. Qed.
Print Assumptions C26_writing.

Example C26_example :
  snd (as_run (as_new (Some [1; 2; 3; 4; 5; 6; 7]) None)
        [SRead 2; SSeek 2 SeekCur; STell; SSeek 1 SeekSet; STell; SSeek (-1) SeekCur; SRead 2; SSeek 20 SeekSet; SRead 3; STell; STruncate None]) =
    [Ok (OBytes [1; 2]); Ok (ONum 4); Ok (ONum 4); Err EUnsupported; Ok (ONum 4); Ok (ONum 3); Ok (OBytes [4; 5]); Ok (ONum 20);
     Ok (OBytes []); Ok (ONum 20); Err EUnsupported] /\
  as_out (fst (as_run (as_new None (Some [])) [SWrite [1]; SSeek 3 SeekSet; SWrite [2; 3]; SSeek 2 SeekCur; SSeek (-1) SeekCur; SWrite [4]])) =
    Some [1; 0; 0; 2; 3; 0; 4].
Proof. vm_compute. split; reflexivity. Qed.

(** Reading everything counts the bytes twice: the position afterwards is beyond the end. *)
Theorem C26_readall_refuted :
  snd (as_run (as_new (Some [1; 2; 3]) None) [SReadAll; STell]) = [Ok (OBytes [1; 2; 3]); Ok (ONum 6)] /\
  snd (in_run [1; 2; 3] (mkSpot 0 0) [SReadAll; STell]) = [Ok (OBytes [1; 2; 3]); Ok (ONum 3)].
Proof. vm_compute. split; reflexivity. Qed.
Print Assumptions C26_readall_refuted.
