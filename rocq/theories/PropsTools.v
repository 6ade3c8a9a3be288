(** C56: the tools that wrap essence in GSF files, extract it and describe the files. *)
From Coq Require Import String Lia.
From Verif Require Import Base GsfPrim GsfBlock GsfPrimProofs GsfEncFile GsfDecode CogEnums GsfEncode GsfSpec GsfFileSpec GsfEncState GsfEncSpec GsfEncDecodeSpec GsfExamples PatternTime PatternSpec PyValue GrainObj BuildSpec GrainSetSpec Wrap WrapSpec GrainTime
  GrainGsf GrainGsfSpec GrainGsfFileSpec GrainGsfExample Tools ToolsSpec ToolsProofs ToolsMain ToolsProbe ToolsMore ToolsExample.
Local Open Scope list_scope.

(** A file wrapped in GSF by a template and extracted again is the file; its grains are pieces of the template's size, one
    period apart, and are otherwise like the template. *)
Theorem C56_file : forall k first now t g size d out id created fuel,
  made t -> o_class t <> KEvent -> writable t g -> zlen (gbytes 9 (1, g)) + size < 4294967296 -> expected_length t = Ok size -> 0 < size ->
  bytes_ok d -> i64 (zlen d) -> (forall i, 0 <= i -> i * size < zlen d -> ts_fits (grid k (g_rate g) (first (g_origin g) (g_rate g) + i))) ->
  uuid_ok id -> dt_valid created = true -> prior out = [] -> (Z.to_nat (zlen d) < fuel)%nat ->
  exists out' bs os, wrap_to_gsf id created t (grain_wrapper k first src_read now t (buffered d) fuel) out = (out', Ok tt) /\
    pieces size d bs /\ in_grains k (g_rate g) (first (g_origin g) (g_rate g)) t bs os /\
    (forall ids now seekable strict fwd, extract ids now seekable (mkFile (GsfEncState.o_data out') 0 strict fwd) = (if in_ids ids 1 then d else [], Ok tt)) /\
    (forall k strict fwd, at_once k -> exists s l, decode_file k (mkFile (GsfEncState.o_data out') 0 strict fwd) = Ok (s, (l, s, Done)) /\
      Forall2 (fun o i => i_local i = 1 /\ comes_back 9 (GsfEncState.o_data out') o i) (if in_ids (k_ids k) 1 then os else []) l).
Proof. exact wrapped_file. Qed.
Print Assumptions C56_file.
Example C56_file_ex :
  (exists out' bs os, wrap_to_gsf (ex_uuid 9) ex_created ob_video tx_wrapped tx_fresh = (out', Ok tt) /\ pieces 16 tx_input bs /\
    in_grains example_clock (25, 1) 0 ob_video bs os /\
    extract None 5 true (mkFile (GsfEncState.o_data out') 0 true false) = (tx_input, Ok tt)) /\
  extract None 5 false (mkFile (tx_file tx_wrapped) 0 false false) = (tx_input, Ok tt) /\ extract (Some [2]) 5 true (mkFile (tx_file tx_wrapped) 0 false false) = ([], Ok tt).
Proof.
  split; [|vm_compute; auto].
  assert (R : g_rate (ob_grain ob_video) = (25, 1)) by (vm_compute; reflexivity). assert (F : tx_first (g_origin (ob_grain ob_video)) (25, 1) = 0) by (vm_compute; reflexivity).
  pose proof (C56_file example_clock tx_first 9 ob_video (ob_grain ob_video) 16 tx_input tx_fresh (ex_uuid 9) ex_created 30 tx_made) as H. rewrite R, F in H.
  destruct H as (out' & bs & os & A & B & C & D & _).
  - discriminate.
  - exact tx_writable.
  - vm_compute. reflexivity.
  - vm_compute. reflexivity.
  - lia.
  - apply ob_bytes. reflexivity.
  - change (zlen tx_input) with 20. unfold i64. lia.
  - intros i I J. change (zlen tx_input) with 20 in J. assert (i = 0 \/ i = 1) as [-> | ->] by lia; [replace (grid _ _ _) with 0 by (vm_compute; reflexivity)|replace (grid _ _ _) with 40000000 by (vm_compute; reflexivity)]; ok.
  - split; [reflexivity|apply ob_bytes; reflexivity].
  - vm_compute. reflexivity.
  - reflexivity.
  - vm_compute. lia.
  - exists out', bs, os. split; [exact A|]. split; [exact B|]. split; [exact C|]. exact (D None 5 true true false).
Qed.

(** From a pipe: the frames that are complete, whatever the fragments. *)
Theorem C56_pipe : forall k first now t g size s pos out id created fuel,
  made t -> o_class t <> KEvent -> writable t g -> zlen (gbytes 9 (1, g)) + size < 4294967296 -> expected_length t = Ok size -> 0 < size ->
  fragments_ok s -> bytes_ok (concat s) -> i64 (zlen (concat s)) ->
  (forall i, 0 <= i -> i * size < zlen (concat s) -> ts_fits (grid k (g_rate g) (first (g_origin g) (g_rate g) + i))) ->
  uuid_ok id -> dt_valid created = true -> prior out = [] -> (Z.to_nat (zlen (concat s)) < fuel)%nat ->
  let d := zfirst (zlen (concat s) / size * size) (concat s) in
  exists out' bs os, wrap_to_gsf id created t (grain_wrapper k first pipe_read now t (mkPipe s pos) fuel) out = (out', Ok tt) /\
    concat bs = d /\ Forall (fun b => zlen b = size) bs /\ in_grains k (g_rate g) (first (g_origin g) (g_rate g)) t bs os /\
    (forall ids now seekable strict fwd, extract ids now seekable (mkFile (GsfEncState.o_data out') 0 strict fwd) = (if in_ids ids 1 then d else [], Ok tt)).
Proof. exact wrapped_pipe. Qed.
Print Assumptions C56_pipe.
Theorem C56_pipe_refuted : exists s, concat s = tx_input /\ fragments_ok s /\
  fst (extract None 5 true (mkFile (tx_file (grain_wrapper example_clock tx_first pipe_read 9 ob_video (mkPipe s 0) 30)) 0 false false)) <> tx_input.
Proof.
  exists [[20; 21]; [22; 23; 24; 25; 26; 27; 28; 29; 30; 31; 32; 33; 34; 35; 36; 37]; [38; 39]]. split; [reflexivity|]. split; [repeat constructor; discriminate|]. vm_compute. discriminate.
Qed.
Print Assumptions C56_pipe_refuted.
Example C56_pipe_ex : extract None 5 false (mkFile (tx_file tx_piped) 0 false false) = (zfirst 16 tx_input, Ok tt).
Proof. vm_compute. reflexivity. Qed.

(** How much is read for a grain: for pictures and sound as much as a new grain of that shape has, whatever the payload of the
    template; for coded grains as much as the template has. *)
Theorem C56_video_size : forall now k fmt w h layout a o, kw_video now k fmt w h layout a = Ok o -> 0 <= w -> 0 <= h ->
  exists e b, kw_video now k fmt w h layout ANone = Ok e /\ get_data e = Ok (Some b) /\ expected_length o = Ok (zlen b) /\ expected_length e = Ok (zlen b).
Proof. exact expected_video. Qed.
Print Assumptions C56_video_size.
Theorem C56_audio_size : forall now k fmt samples channels rate a o, kw_audio now k fmt samples channels rate a = Ok o -> member audio_formats fmt = true -> 0 <= samples -> 0 <= channels ->
  exists e b, kw_audio now k fmt samples channels rate ANone = Ok e /\ get_data e = Ok (Some b) /\ expected_length o = Ok (zlen b) /\ expected_length e = Ok (zlen b).
Proof. exact expected_audio. Qed.
Print Assumptions C56_audio_size.
Theorem C56_coded_video_size : forall now k fmt ow oh cw ch key temporal len layout offs a o b, kw_coded_video now k fmt ow oh cw ch key temporal len layout offs a = Ok o ->
  get_data o = Ok (Some b) -> expected_length o = Ok (zlen b).
Proof. exact expected_coded. Qed.
Print Assumptions C56_coded_video_size.
Theorem C56_coded_audio_size : forall now k fmt samples channels priming remainder rate len a o b, kw_coded_audio now k fmt samples channels priming remainder rate len a = Ok o ->
  get_data o = Ok (Some b) -> expected_length o = Ok (zlen b).
Proof. exact expected_coded_audio. Qed.
Print Assumptions C56_coded_audio_size.
Example C56_size_ex : let k := mkKw (Some 1) (Some 2) None None None (25, 1) (1, 25) in
  rbind (kw_video 5 k 0x2000 4 2 0 (ABytes [1])) expected_length = Ok 24 /\ rbind (kw_audio 5 k 0x1 10 3 48000 AWait) expected_length = Ok 80 /\
  rbind (kw_coded_video 5 k 0x206 4 2 None None None None None 0 None (ABytes [1; 2; 3])) expected_length = Ok 3.
Proof. vm_compute. auto. Qed.

(** Whatever grains a wrapper yields, and also if it then raises: what was wrapped can be extracted. *)
Theorem C56_any : forall id created t flow os gs bs x out, attr as_id $"flow_id" t = Ok flow -> uuid_ok flow -> uuid_ok id -> dt_valid created = true -> prior out = [] ->
  Forall2 writable os gs -> Forall (grain_fits 9) (map (pair 1) gs) -> i64 (zlen gs) -> Forall2 has_payload os bs ->
  exists out', wrap_to_gsf id created t (os, x) out = (out', match x with None => Ok tt | Some e => Err e end) /\
    forall ids now seekable strict fwd, extract ids now seekable (mkFile (GsfEncState.o_data out') 0 strict fwd) = (if in_ids ids 1 then concat bs else [], Ok tt).
Proof. exact extract_wrapped. Qed.
Print Assumptions C56_any.
Example C56_any_ex : let w := ([ob_coded; ob_video], Some EEof) in
  snd (wrap_to_gsf (ex_uuid 9) ex_created ob_video w tx_fresh) = Err EEof /\
  extract None 5 true (mkFile (tx_file w) 0 true false) = ([7; 8; 9; 1; 2; 3; 4; 5; 6; 7; 8; 9; 10; 11; 12; 13; 14; 15; 16], Ok tt).
Proof. vm_compute. auto. Qed.

(** But extraction stops at a plain grain without a payload. *)
Theorem C56_no_payload : forall id created t flow os1 o os2 gs bs x out, attr as_id $"flow_id" t = Ok flow -> uuid_ok flow -> uuid_ok id -> dt_valid created = true -> prior out = [] ->
  Forall2 writable (os1 ++ o :: os2) gs -> Forall (grain_fits 9) (map (pair 1) gs) -> i64 (zlen gs) -> Forall2 has_payload os1 bs ->
  o_class o = KGrain -> opt_bytes (o_data o) = [] ->
  exists out', wrap_to_gsf id created t (os1 ++ o :: os2, x) out = (out', match x with None => Ok tt | Some e => Err e end) /\
    forall ids now seekable strict fwd, in_ids ids 1 = true -> extract ids now seekable (mkFile (GsfEncState.o_data out') 0 strict fwd) = (concat bs, Err EType).
Proof. exact extract_stops. Qed.
Print Assumptions C56_no_payload.
Example C56_no_payload_ex : extract None 5 true (mkFile (tx_file ([ob_coded; ob_empty; ob_video], None)) 0 true false) = ([7; 8; 9], Err EType).
Proof. vm_compute. reflexivity. Qed.

(** A grain that cannot be written ends the wrapping as if the wrapper had raised there. *)
Theorem C56_unwritable : forall id created t os1 o os2 x y out, read_grain o = Err x ->
  wrap_to_gsf id created t (os1 ++ o :: os2, y) out = wrap_to_gsf id created t (os1, Some x) out.
Proof. exact unwritable. Qed.
Print Assumptions C56_unwritable.
Example C56_unwritable_ex : let w := ([ob_coded; tx_unwritable; ob_video], None) in
  snd (wrap_to_gsf (ex_uuid 9) ex_created ob_video w tx_fresh) = Err EEncode /\ extract None 5 true (mkFile (tx_file w) 0 true false) = ([7; 8; 9], Ok tt).
Proof. vm_compute. auto. Qed.

(** From a file that cannot be read to its end comes the essence of the grains before, and then the exception. *)
Theorem C56_early : forall ids now seekable f s l s' e bs, decode_file (reading ids LoadImmediately seekable) f = Ok (s, (l, s', Raised e)) ->
  Forall2 (fun i b => exists o, item_object now (f_data f) i = Ok o /\ get_data o = Ok (Some b)) l bs -> extract ids now seekable f = (concat bs, Err e).
Proof. exact extract_early. Qed.
Print Assumptions C56_early.
Example C56_early_ex : let data := tx_file ([ob_coded; ob_video], None) in
  extract None 5 true (mkFile (zfirst 360 data ++ [255] ++ zskip 361 data) 0 true false) = ([7; 8; 9], Err EDecode).
Proof. vm_compute. reflexivity. Qed.
(** A file cut off within a grain is not told apart from one that ends before it. *)
Theorem C56_truncated_refuted : exists n, let data := tx_file ([ob_coded; ob_video], None) in 0 < n < zlen data /\
  extract None 5 true (mkFile data 0 true false) = ([7; 8; 9; 1; 2; 3; 4; 5; 6; 7; 8; 9; 10; 11; 12; 13; 14; 15; 16], Ok tt) /\
  extract None 5 true (mkFile (zfirst n data) 0 true false) = ([7; 8; 9], Ok tt).
Proof. exists 480. split; [split; vm_compute; reflexivity|]. split; vm_compute; reflexivity. Qed.
Print Assumptions C56_truncated_refuted.

(** The description of any file that can be read: one row for each number of a segment, with the last segment of that number
    and its grains in order. A grain of no segment is a KeyError. *)
Theorem C56_probe : forall k now seekable f s l s' h xs, decode_file (reading None LoadDefer seekable) f = Ok (s, (l, s', Done)) -> s_head s = Some h -> Forall2 (said_of k now (f_data f)) l xs ->
  (Forall (fun x => In (said_id x) (map sg_local (hd_segs h))) xs -> exists t, probe k now seekable f = Ok t /\ NoDup (map fst t) /\
    forall n, row n t = match last_with n (hd_segs h) with
                        | None => None
                        | Some sg => Some (mkPr sg (map said_meta (numbered said_id n xs)) (map said_times (numbered said_id n xs)) (joined (map said_range (numbered said_id n xs)))) end) /\
  (~ Forall (fun x => In (said_id x) (map sg_local (hd_segs h))) xs -> probe k now seekable f = Err EKey).
Proof. exact probe_rows. Qed.
Print Assumptions C56_probe.
Example C56_probe_ex : probe example_clock 5 true (mkFile tx_stray 0 false false) = Err EKey /\
  match decode_file (reading None LoadDefer true) (mkFile tx_stray 0 false false) with
  | Ok (s, (l, _, o)) => option_map (fun h => map sg_local (hd_segs h)) (s_head s) = Some [1] /\ map i_local l = [1; 7] /\ o = Done
  | Err _ => False end.
Proof. vm_compute. auto. Qed.

(** The description of a file written from grain objects: every segment, with the times of its grains. *)
Theorem C56_written : forall k e c los lgs data now seekable strict fwd, reads_as e c lgs data -> all_writable los lgs ->
  Forall (fun lo => In (fst lo) (map st_local (e_segs e)) /\ timed (snd lo)) los ->
  exists t, probe k now seekable (mkFile data 0 strict fwd) = Ok t /\ NoDup (map fst t) /\
    (forall n, In n (map fst t) <-> In n (map st_local (e_segs e))) /\
    forall n p, row n t = Some p -> sg_local (pr_segment p) = n /\ List.length (pr_grains p) = List.length (pr_times p) /\
      Forall2 (fun lo x => times_kept (e_major e) now (snd lo) x) (numbered fst n los) (pr_times p) /\
      exists ss, pr_range p = joined ss /\ Forall2 (fun lo s => e_major e <> 7 -> origin_timerange k (snd lo) = Ok s) (numbered fst n los) ss.
Proof. exact probe_written. Qed.
Print Assumptions C56_written.
Example C56_written_ex : match probe example_clock 5 true (mkFile (tx_file tx_wrapped) 0 false false) with
  | Ok t => map (fun x => (fst x, sg_local (pr_segment (snd x)), pr_times (snd x), pr_range (snd x))) t =
      [(1, 1, [(PTime 0, PTime 1000, PTime 5); (PTime 40000000, PTime 1000, PTime 5)], Some (Span 0 40000000 true))]
  | Err _ => False end.
Proof. vm_compute. reflexivity. Qed.
(** The sync timestamps of what is wrapped are all the template's. *)
Theorem C56_sync_refuted : exists t w, w = grain_wrapper example_clock tx_first src_read 9 t (buffered tx_input) 30 /\ snd w = None /\
  map (fun o => getattr o $"origin_timestamp") (fst w) = [Ok (PTime 0); Ok (PTime 40000000)] /\
  map (fun o => getattr o $"sync_timestamp") (fst w) = [Ok (PTime 1000); Ok (PTime 1000)].
Proof. exists ob_video, tx_wrapped. split; [reflexivity|]. vm_compute. auto. Qed.
Print Assumptions C56_sync_refuted.
