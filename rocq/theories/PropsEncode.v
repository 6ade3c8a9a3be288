(** Property theorems about encoding: C04, C06, C07, C16-C21. *)
From Verif Require Import Base Utf8 GsfPrim GsfBlock GsfDecode GsfEncode GsfBlockProofs GsfSpec GsfFileSpec GsfEncState GsfEncSpec
  GsfEncFile GsfEncDecodeSpec GsfEncFacts GsfEncIds GsfEncReject GsfGroup GsfGroupProofs GsfDumps GsfSplitSpec GsfSplitProofs
  GsfExamples GsfEncExamples.
From Coq Require Import Permutation.

(** C04. All the sizes in a complete file are exact, however it was written. *)
Theorem C04_sizes_all_at_once : forall e ops logs hist, reachable e -> idle e -> batch e ops hist -> GivenAll (keys_of e) ops logs ->
  prior (e_out e) = [] -> head_sized (e_id e) (e_created e) (with_counts (fun _ => 0) (e_segs e)) (e_tags e) ->
  Forall (grain_sized (e_major e)) (waiting (e_segs e) ++ logs) ->
  sized_file (e_major e) (length (waiting (e_segs e) ++ logs)) (o_data (e_out (run_ops e hist))).
Proof. exact batch_sized. Qed.
Print Assumptions C04_sizes_all_at_once.

Theorem C04_sizes_streaming : forall e async o c ops logs, streams e async o c -> (async = false -> from_encoder e) ->
  Forall (client_of async (length (e_sess e))) ops -> SentAll (e_major e) (keys_of e) (length (e_sess e)) ops logs ->
  prior (e_out e) = [] -> head_sized (e_id e) (e_created e) (with_counts (fun _ => 0) (e_segs e)) (e_tags e) ->
  Forall (grain_sized (e_major e)) (waiting (e_segs e) ++ logs) ->
  sized_file (e_major e) (length (waiting (e_segs e) ++ logs)) (o_data (e_out (run_ops e (o :: ops ++ [c])))).
Proof. exact stream_sized. Qed.
Print Assumptions C04_sizes_streaming.

Theorem C04_head_contents : forall major id created segs tags, head_sized id created segs tags ->
  exists pl, enc_head id created segs tags = enc_block T_head pl /\ Exact major (T_head, pl) /\
    exists sl tl, split (zskip 23 pl) = Some (sl ++ tl) /\
      length sl = length segs /\ Forall (fun b => fst b = T_segm) sl /\
      length tl = length tags /\ Forall (fun b => fst b = T_tag) tl.
Proof. exact head_exact. Qed.
Print Assumptions C04_head_contents.

Theorem C04_grain_contents : forall major lg, grain_sized major lg ->
  exists pl gp, gbytes major lg = enc_block T_grai pl /\ small_payload pl /\ Exact major (T_grai, pl) /\
    split (zskip 2 pl) = Some [(T_gbhd, gp); (T_grdt, opt_bytes (g_data (snd lg)))].
Proof. exact grain_exact. Qed.
Print Assumptions C04_grain_contents.

Example C04_example :
  let e := ex_enc true false in
  let data := o_data (e_out (run_ops e (Enter :: ex_adds ++ [Exit]))) in
  sized_file 8 5 data /\
  option_map (map (fun b => (fst b, zlen (snd b)))) (split (zfirst (zlen data - 20) (zskip 12 data))) =
    Some [(T_head, 231); (T_grai, 239); (T_grai, 116); (T_grai, 97); (T_grai, 116); (T_grai, 97)].
Proof.
  cbv zeta. split; [|vm_compute; reflexivity].
  apply (batch_sized (ex_enc true false) ex_adds ex_logs);
    [apply ex_enc_reachable|apply ex_enc_idle|apply BA_with; reflexivity|apply ex_given|reflexivity|apply ex_enc_sized|exact ex_logs_sized].
Qed.

(** C06. Whole files read back: all at once, streaming, and dumps with loads. *)
Theorem C06_all_at_once : forall e ops logs hist, reachable e -> idle e -> batch e ops hist -> GivenAll (keys_of e) ops logs ->
  prior (e_out e) = [] -> head_fits e -> Forall (fun s => i64 (final_count true logs s)) (e_segs e) ->
  Forall (grain_fits (e_major e)) (waiting (e_segs e) ++ logs) ->
  reads_as e (final_count true logs) (segment_by_segment (e_segs e) (waiting (e_segs e) ++ logs))
    (o_data (e_out (run_ops e hist))).
Proof. exact batch_roundtrip. Qed.
Print Assumptions C06_all_at_once.

Theorem C06_streaming : forall e async o c ops logs, streams e async o c -> (async = false -> from_encoder e) ->
  Forall (client_of async (length (e_sess e))) ops -> SentAll (e_major e) (keys_of e) (length (e_sess e)) ops logs ->
  prior (e_out e) = [] -> head_fits e -> Forall (fun s => i64 (final_count (o_seek (e_out e)) logs s)) (e_segs e) ->
  Forall (grain_fits (e_major e)) (waiting (e_segs e) ++ logs) ->
  reads_as e (final_count (o_seek (e_out e)) logs) (waiting (e_segs e) ++ logs)
    (o_data (e_out (run_ops e (o :: ops ++ [c])))).
Proof. exact stream_roundtrip. Qed.
Print Assumptions C06_streaming.

Theorem C06_dumps_loads : forall gs seg_id stags major minor id created,
  (major = 7 \/ major = 8 \/ major = 9) -> u16 minor -> uuid_ok id -> dt_valid created = true ->
  uuid_ok seg_id -> Forall tag_fits stags -> i64 (zlen gs) ->
  zlen (enc_head id created [(mkESeg 1 seg_id None stags, 0)] []) < 4294967296 ->
  Forall (grain_fits major) (map (pair 1) gs) -> gs <> [] ->
  exists data d, dumps gs seg_id stags major minor id created false = Ok data /\
    loads data = Ok (mkHead id created [mkSegm 1 seg_id (zlen gs) None stags] [], d) /\
    seen_groups d = [(1, map (fun g => (meta_of major g, opt_bytes (g_data g))) gs)].
Proof. exact dumps_loads. Qed.
Print Assumptions C06_dumps_loads.

(** The streaming argument of dump and dumps cannot be used: adding the segment is refused. *)
Theorem C06_dumps_streaming_refuted : forall gs seg_id stags major minor id created,
  dumps gs seg_id stags major minor id created true = Err EActive.
Proof. exact dumps_streaming_fails. Qed.
Print Assumptions C06_dumps_streaming_refuted.

Example C06_example :
  let e := ex_enc true false in
  let data := o_data (e_out (run_ops e (Enter :: ex_adds ++ [Exit]))) in
  reads_as e (final_count true ex_logs) [(1, ex_video); (1, ex_audio); (4, ex_event); (4, ex_audio); (4, ex_event)] data /\
  match decode_file ex_cfg (ex_in data) with
  | Ok (s, (l, s', o)) =>
      s = s' /\ o = Done /\ map i_local l = [1; 1; 4; 4; 4] /\
      match s_head s with
      | Some h => hd_id h = ex_uuid 9 /\ hd_created h = ex_created /\ hd_tags h = [([116], [120; 233])] /\
                  map sg_local (hd_segs h) = [1; 4] /\ map sg_count (hd_segs h) = [2; 3] /\
                  map sg_flow (hd_segs h) = [None; Some (mkFlow (ex_uuid 1) (ex_uuid 3) [97] [123; 125])]
      | None => False
      end
  | Err _ => False
  end.
Proof.
  cbv zeta. split; [|vm_compute; repeat split; reflexivity].
  apply (batch_roundtrip (ex_enc true false) ex_adds ex_logs);
    [apply ex_enc_reachable|apply ex_enc_idle|apply BA_with; reflexivity|apply ex_given|reflexivity|apply ex_enc_fits| |exact ex_logs_fit].
  repeat constructor; vm_compute; congruence.
Qed.

Example C06_dumps_example :
  match dumps [ex_video; ex_audio] (ex_uuid 5) [([107], [118])] 8 0 (ex_uuid 9) ex_created false with
  | Ok data => match loads data with
               | Ok (h, d) => map sg_count (hd_segs h) = [2] /\
                   seen_groups d = [(1, [(meta_of 8 ex_video, [1; 2; 3; 4; 5; 6; 7; 8; 9; 10]); (meta_of 8 ex_audio, [9; 8; 7; 6; 5; 4])])]
               | Err _ => False
               end
  | Err _ => False
  end.
Proof. vm_compute. split; reflexivity. Qed.

(** C07. load, loads and decode group the grains by local id: nothing lost, duplicated or reordered. *)
Theorem C07_grouping : forall (A : Type) (l : list (Z * A)),
  Forall (fun e => snd e = with_key (fst e) l /\ snd e <> []) (group l) /\
  map fst (group l) = first_keys [] l /\ NoDup (map fst (group l)) /\
  (forall k, In k (map fst (group l)) <-> In k (map fst l)) /\
  Permutation (flat_map snd (group l)) (map snd l).
Proof. exact @group_ok. Qed.
Print Assumptions C07_grouping.

Theorem C07_load : forall cc back fwd' lazy strict fwd data s0 s v h,
  decodes_to (mkCfg None LoadImmediately cc back fwd' lazy) strict fwd data s0 s v -> s_head s = Some h ->
  exists d, load cc back fwd' lazy (mkFile data 0 strict fwd) = Ok (h, d) /\ seen_groups d = group (map by_local v).
Proof. exact load_groups. Qed.
Print Assumptions C07_load.

Example C07_example :
  match loads (o_data (e_out (run_ops (ex_enc true true) (Enter :: ex_adds ++ [Exit])))) with
  | Ok (h, d) => seen_groups d = [(4, [(meta_of 8 ex_event, []); (meta_of 8 ex_audio, [9; 8; 7; 6; 5; 4]); (meta_of 8 ex_event, [])]);
                                  (1, [(meta_of 8 ex_video, [1; 2; 3; 4; 5; 6; 7; 8; 9; 10]); (meta_of 8 ex_audio, [9; 8; 7; 6; 5; 4])])]
  | Err _ => False
  end.
Proof. vm_compute. reflexivity. Qed.

(** C16. Streaming and writing all at once: the same bytes when the grains come segment by segment, otherwise the same
    header and the same grains in each segment. *)
Theorem C16_same_bytes : forall e1 e2 async o c ops1 ops2 logs hist, same_contents e1 e2 ->
  o_seek (e_out e1) = true -> o_seek (e_out e2) = true -> reachable e2 -> idle e2 ->
  streams e1 async o c -> (async = false -> from_encoder e1) -> Forall (client_of async (length (e_sess e1))) ops1 ->
  SentAll (e_major e1) (keys_of e1) (length (e_sess e1)) ops1 logs ->
  batch e2 ops2 hist -> GivenAll (keys_of e2) ops2 logs ->
  Forall (encodable (e_major e1)) (waiting (e_segs e1) ++ logs) ->
  segment_by_segment (e_segs e1) (waiting (e_segs e1) ++ logs) = waiting (e_segs e1) ++ logs ->
  o_data (e_out (run_ops e1 (o :: ops1 ++ [c]))) = o_data (e_out (run_ops e2 hist)).
Proof. exact stream_is_batch. Qed.
Print Assumptions C16_same_bytes.

Theorem C16_same_grains : forall e1 e2 async o c ops1 ops2 logs hist, same_contents e1 e2 ->
  o_seek (e_out e1) = true -> o_seek (e_out e2) = true -> reachable e2 -> idle e2 ->
  streams e1 async o c -> (async = false -> from_encoder e1) -> Forall (client_of async (length (e_sess e1))) ops1 ->
  SentAll (e_major e1) (keys_of e1) (length (e_sess e1)) ops1 logs ->
  batch e2 ops2 hist -> GivenAll (keys_of e2) ops2 logs ->
  head_fits e1 -> Forall (fun s => i64 (final_count true logs s)) (e_segs e1) ->
  Forall (grain_fits (e_major e1)) (waiting (e_segs e1) ++ logs) ->
  exists gs1 gs2, (forall l, of_segment l gs1 = of_segment l gs2) /\
    reads_as e1 (final_count true logs) gs1 (o_data (e_out (run_ops e1 (o :: ops1 ++ [c])))) /\
    reads_as e1 (final_count true logs) gs2 (o_data (e_out (run_ops e2 hist))).
Proof. exact stream_like_batch. Qed.
Print Assumptions C16_same_grains.

Example C16_example :
  let ops := [SAddGrains 1 [ex_video]; EAddGrains [ex_audio] None None []; SAddGrains 4 [ex_event; ex_audio]] in
  let logs := [(1, ex_video); (1, ex_audio); (4, ex_event); (4, ex_audio)] in
  same_contents (ex_enc true true) (ex_enc true false) /\
  segment_by_segment (e_segs (ex_enc true true)) logs = logs /\
  o_data (e_out (run_ops (ex_enc true true) (Enter :: ops ++ [Exit]))) =
  o_data (e_out (run_ops (ex_enc true false) (Enter :: ops ++ [Exit]))) /\
  o_data (e_out (run_ops (ex_enc true true) (Enter :: ex_adds ++ [Exit]))) <>
  o_data (e_out (run_ops (ex_enc true false) (Enter :: ex_adds ++ [Exit]))).
Proof.
  cbv zeta. split; [repeat split|]. split; [reflexivity|]. split; [vm_compute; reflexivity|].
  intros H. apply (f_equal (fun d => nth 255 d 0)) in H. vm_compute in H. discriminate H.
Qed.

(** C17. The counts in the header are those of the grains that follow; while streaming they are -1, and the end of the
    stream changes only the 8 bytes of each count (if the output can seek) and appends the terminator. *)
Theorem C17_counts_all_at_once : forall e ops logs hist, reachable e -> idle e -> batch e ops hist -> GivenAll (keys_of e) ops logs ->
  Forall (encodable (e_major e)) (waiting (e_segs e) ++ logs) -> Forall (fun s => st_wc s = 0) (e_segs e) ->
  exists gs, o_data (e_out (run_ops e hist)) =
    prior (e_out e) ++ complete_file e (with_counts (fun s => occurs (st_local s) gs) (e_segs e)) (e_tags e) gs.
Proof. exact first_dump_counts. Qed.
Print Assumptions C17_counts_all_at_once.

Theorem C17_counts_streaming : forall e async o c ops logs, reachable e -> streams e async o c -> (async = false -> from_encoder e) ->
  Forall (client_of async (length (e_sess e))) ops -> SentAll (e_major e) (keys_of e) (length (e_sess e)) ops logs ->
  Forall (encodable (e_major e)) (waiting (e_segs e)) -> Forall (fun s => st_wc s = 0) (e_segs e) ->
  let gs := waiting (e_segs e) ++ logs in
  o_data (e_out (run_ops e (o :: ops ++ [c]))) =
    prior (e_out e) ++
    complete_file e (with_counts (fun s => if o_seek (e_out e) then occurs (st_local s) gs else -1) (e_segs e)) (e_tags e) gs.
Proof. exact first_stream_counts. Qed.
Print Assumptions C17_counts_streaming.

Theorem C17_backpatching : forall e async o c ops logs, streams e async o c -> (async = false -> from_encoder e) ->
  Forall (client_of async (length (e_sess e))) ops -> SentAll (e_major e) (keys_of e) (length (e_sess e)) ops logs ->
  Forall (encodable (e_major e)) (waiting (e_segs e)) ->
  exists frags last, length frags = length (e_segs e) /\
    o_data (e_out (run_ops e (o :: ops))) = fill frags (map (fun _ => -1) (e_segs e)) last /\
    o_data (e_out (run_ops e (o :: ops ++ [c]))) =
      fill frags (map (final_count (o_seek (e_out e)) logs) (e_segs e)) last ++ terminator.
Proof. exact counts_backpatched. Qed.
Print Assumptions C17_backpatching.

Example C17_example :
  let counts data := match decode_file ex_cfg (ex_in data) with
                     | Ok (s, _) => match s_head s with Some h => map sg_count (hd_segs h) | None => [] end
                     | Err _ => []
                     end in
  let before sk := o_data (e_out (run_ops (ex_enc sk true) (Enter :: ex_adds))) in
  let after sk := o_data (e_out (run_ops (ex_enc sk true) (Enter :: ex_adds ++ [Exit]))) in
  counts (before true) = [-1; -1] /\ counts (after true) = [2; 3] /\ counts (after false) = [-1; -1] /\
  after false = before false ++ terminator /\ zlen (after true) = zlen (before true) + 8.
Proof. vm_compute. repeat split; reflexivity. Qed.

(** C18. A stream that is cut off between calls reads back as exactly what was written so far. *)
Theorem C18_crash : forall e async o c ops logs, streams e async o c -> (async = false -> from_encoder e) ->
  Forall (client_of async (length (e_sess e))) ops -> SentAll (e_major e) (keys_of e) (length (e_sess e)) ops logs ->
  prior (e_out e) = [] -> head_fits e -> Forall (grain_fits (e_major e)) (waiting (e_segs e) ++ logs) ->
  reads_as e (fun _ => -1) (waiting (e_segs e) ++ logs) (o_data (e_out (run_ops e (o :: ops)))).
Proof. exact stream_crash. Qed.
Print Assumptions C18_crash.

Example C18_example :
  reads_as (ex_enc true true) (fun _ => -1) ex_logs (o_data (e_out (run_ops (ex_enc true true) (Enter :: ex_adds)))) /\
  reads_as (ex_enc true true) (fun _ => -1) ex_logs (o_data (e_out (run_ops (ex_enc true true) (AEnter :: ex_async_adds 0)))) /\
  match decode_file ex_cfg (ex_in (o_data (e_out (run_ops (ex_enc true true) (Enter :: ex_adds))))) with
  | Ok (s, (l, s', o)) => map i_local l = [4; 1; 4; 4; 1] /\ o = Done
  | Err _ => False
  end.
Proof.
  split; [|split; [|vm_compute; split; reflexivity]].
  - apply (stream_crash (ex_enc true true) false Enter Exit ex_adds ex_logs);
      [apply SM_with; reflexivity|intros _; apply ex_enc_from|apply ex_clients|
       apply given_sent; [apply ex_given|exact ex_logs_encodable|apply ex_clients]|reflexivity|apply ex_enc_fits|exact ex_logs_fit].
  - apply (stream_crash (ex_enc true true) true AEnter AExit (ex_async_adds 0) ex_logs);
      [apply SM_async_with; reflexivity|discriminate|apply ex_async_clients|
       apply given_sent; [apply ex_async_given|exact ex_logs_encodable|repeat constructor]|reflexivity|apply ex_enc_fits|exact ex_logs_fit].
Qed.

(** C19. Local ids are unique; automatic ones never clash in orderly use; explicit ones are refused exactly when in
    use. *)
Theorem C19_unique : forall e, reachable e -> NoDup (locals e).
Proof. exact locals_unique. Qed.
Print Assumptions C19_unique.

Theorem C19_automatic : forall e id tags, orderly_state e -> current e = None ->
  exists l, ~ In l (locals e) /\ snd (step e (EAddSegment id None tags)) = done /\
    e_segs (fst (step e (EAddSegment id None tags))) = e_segs e ++ [new_seg id l tags ParEncoder].
Proof. exact auto_segment. Qed.
Print Assumptions C19_automatic.

Theorem C19_automatic_open : forall e n id tags, orderly_state e -> current e = Some n -> ss_active (get_ss e n) = false ->
  exists l, ~ In l (locals e) /\ snd (step e (OAddSegment n id None tags)) = done /\
    e_segs (fst (step e (OAddSegment n id None tags))) = e_segs e ++ [new_seg id l tags (ParOpen n)].
Proof. exact auto_segment_open. Qed.
Print Assumptions C19_automatic_open.

Theorem C19_automatic_dumping : forall e n id tags, orderly_state e -> current e = Some n -> ss_active (get_ss e n) = true ->
  snd (step e (OAddSegment n id None tags)) = Err EActive.
Proof. exact auto_segment_active. Qed.
Print Assumptions C19_automatic_dumping.

Theorem C19_automatic_grains : forall e gs sid fr, orderly_state e -> idle e -> e_async e = None ->
  candidates (keys_of e) sid None = [] ->
  exists l, ~ In l (locals e) /\ snd (step e (EAddGrains gs sid None fr)) = done /\
    locals (fst (step e (EAddGrains gs sid None fr))) = locals e ++ [l].
Proof. exact auto_segment_grains. Qed.
Print Assumptions C19_automatic_grains.

Theorem C19_explicit : forall e id l tags, e_sync e = None ->
  (snd (step e (EAddSegment id (Some l) tags)) = Err EEncode <-> In l (locals e)) /\
  (~ In l (locals e) -> snd (step e (EAddSegment id (Some l) tags)) = done /\
     e_segs (fst (step e (EAddSegment id (Some l) tags))) = e_segs e ++ [new_seg id l tags ParEncoder]) /\
  (In l (locals e) -> e_segs (fst (step e (EAddSegment id (Some l) tags))) = e_segs e).
Proof. exact explicit_segment. Qed.
Print Assumptions C19_explicit.

Theorem C19_explicit_open : forall e n id l tags, ss_active (get_ss e n) = false ->
  (snd (step e (OAddSegment n id (Some l) tags)) = Err EEncode <-> In l (locals e)) /\
  (~ In l (locals e) -> snd (step e (OAddSegment n id (Some l) tags)) = done /\
     e_segs (fst (step e (OAddSegment n id (Some l) tags))) = e_segs e ++ [new_seg id l tags (ParOpen n)]) /\
  (In l (locals e) -> e_segs (fst (step e (OAddSegment n id (Some l) tags))) = e_segs e).
Proof. exact explicit_segment_open. Qed.
Print Assumptions C19_explicit_open.

Example C19_example :
  let e := ex_enc true false in
  orderly_state e /\ locals e = [1; 4] /\ snd (step e (EAddSegment (ex_uuid 7) (Some 4) [])) = Err EEncode /\
  locals (run_ops e [EAddSegment (ex_uuid 7) None []; EAddSegment (ex_uuid 7) (Some 2) []; EAddSegment (ex_uuid 7) None []; Enter;
                     OAddSegment 0 (ex_uuid 8) None []; OAddGrains 0 [ex_event] (Some (ex_uuid 10)) None []; Exit;
                     EAddSegment (ex_uuid 7) None []]) =
  [1; 4; 5; 2; 6; 7; 8; 9].
Proof. split; [apply ex_enc_orderly|]. vm_compute. repeat split; reflexivity. Qed.

(** Without the restriction to orderly use an automatic id can clash: a segment added through the encoder while an
    asynchronous session is open; a session started inside another one; going on after a failed exit. *)
Theorem C19_disorderly_refuted :
  (exists e, reachable e /\ snd (step e (OAddSegment 0 (ex_uuid 7) None [])) = Err EEncode) /\
  (exists e, reachable e /\ current e = None /\ snd (step e (EAddSegment (ex_uuid 7) None [])) = Err EEncode).
Proof.
  split.
  - exists (run_ops (ex_enc true false) [AEnter; EAddSegment (ex_uuid 7) None []]). split; [|reflexivity].
    apply reachable_run, ex_enc_reachable.
  - exists (run_ops (ex_enc true false) [Enter; OAddSegment 0 (ex_uuid 7) None []; StartDump true; EndDump]). split; [|split; reflexivity].
    apply reachable_run, ex_enc_reachable.
Qed.
Print Assumptions C19_disorderly_refuted.

(** C20. During a synchronous dump changes of the header are refused and the output is the same as if they had not
    been attempted. *)
Theorem C20_refused : forall e o c ops h ops' tail, starts e o c ->
  Forall (encodable (e_major e)) (waiting (e_segs e)) -> from_encoder e ->
  let n := length (e_sess e) in
  Forall (client n) ops -> header_change n h -> Forall (client n) ops' -> tail = [] \/ tail = [c] ->
  (exists x, snd (step (run_ops e (o :: ops)) h) = Err x /\ refusal (locals (run_ops e (o :: ops))) h x) /\
  e_out (run_ops e (o :: ops ++ h :: ops' ++ tail)) = e_out (run_ops e (o :: ops ++ ops' ++ tail)).
Proof. exact header_change_harmless. Qed.
Print Assumptions C20_refused.

Example C20_example :
  let e := ex_enc true true in
  starts e Enter Exit /\
  map (fun h => snd (step (run_ops e (Enter :: ex_adds)) h))
    [EAddTag ([1], [2]); EAddSegment (ex_uuid 7) None []; OAddTag 0 ([1], [2]); OAddSegment 0 (ex_uuid 7) None [];
     OAddSegment 0 (ex_uuid 7) (Some 4) []; SAddTag 1 ([1], [2]); SAddFlow 4 (mkEFlow [] [] [] []); SAddTag 2 ([1], [2])] =
  [Err EActive; Err EActive; Err EActive; Err EActive; Err EEncode; Err EActive; Err EActive; Err EKey] /\
  o_data (e_out (run_ops e (Enter :: ex_adds ++ EAddTag ([1], [2]) :: OAddSegment 0 (ex_uuid 7) None [] :: ex_adds ++ [Exit]))) =
  o_data (e_out (run_ops e (Enter :: ex_adds ++ ex_adds ++ [Exit]))).
Proof. cbv zeta. split; [apply St_with; reflexivity|]. vm_compute. split; reflexivity. Qed.

(** In an asynchronous session it is otherwise: the encoder itself accepts tags and segments after the header has been
    written, and they do not get into the file. *)
Theorem C20_async_refuted : exists e, reachable e /\ e_streaming e = true /\
  let e1 := run_ops e [AEnter] in
  snd (step e1 (EAddTag ([1], [2]))) = done /\ snd (step e1 (EAddSegment (ex_uuid 7) None [])) = done /\
  e_tags (run_ops e [AEnter; EAddTag ([1], [2]); AExit]) = e_tags e ++ [([1], [2])] /\
  o_data (e_out (run_ops e [AEnter; EAddTag ([1], [2]); AExit])) = o_data (e_out (run_ops e [AEnter; AExit])).
Proof. exists (ex_enc true true). split; [apply ex_enc_reachable|]. vm_compute. repeat split; reflexivity. Qed.
Print Assumptions C20_async_refuted.

(** C21. A second dump of the same encoder contains only the grains added since, but its counts include the earlier
    ones; so they are right exactly for segments of which the first dump wrote none. *)
Theorem C21_second_dump : forall e ops1 ops2 logs hist, reachable e -> idle e -> at_once e ops1 ->
  Forall (encodable (e_major e)) (waiting (e_segs e)) ->
  batch (run_ops e ops1) ops2 hist -> GivenAll (keys_of e) ops2 logs -> Forall (encodable (e_major e)) logs ->
  o_data (e_out (run_ops e (ops1 ++ hist))) =
    prior (e_out (run_ops e ops1)) ++
    complete_file e (with_counts (fun s => total s + occurs (st_local s) logs) (e_segs e)) (e_tags e)
      (segment_by_segment (e_segs e) logs).
Proof. exact second_dump. Qed.
Print Assumptions C21_second_dump.

Theorem C21_counts : forall e s logs, reachable e -> In s (e_segs e) ->
  (total s + occurs (st_local s) logs = occurs (st_local s) (segment_by_segment (e_segs e) logs) <-> total s = 0).
Proof. exact second_dump_counts. Qed.
Print Assumptions C21_counts.

Example C21_example :
  let data := o_data (e_out (run_ops (ex_enc true false)
    ([SAddGrains 1 [ex_video; ex_audio]] ++ [StartDump true; EndDump] ++ ex_adds ++ [StartDump true; EndDump]))) in
  match decode_file ex_cfg (ex_in data) with
  | Ok (s, (l, _, o)) => map i_local l = [1; 1; 4; 4; 4] /\
      match s_head s with Some h => map sg_count (hd_segs h) = [4; 3] | None => False end
  | Err _ => False
  end.
Proof. vm_compute. split; reflexivity. Qed.

(** Streaming does not always write what was added. In an asynchronous session a grain added to a segment object is
    only stored; so is one added in a synchronous session to a segment that was created by an earlier session. *)
Theorem C16_lost_grains_refuted :
  (exists e, reachable e /\ e_streaming e = true /\ from_encoder e /\
     snd (step (run_ops e [AEnter]) (SAddGrains 1 [ex_audio])) = done /\
     o_data (e_out (run_ops e [AEnter; SAddGrains 1 [ex_audio]; AExit])) = o_data (e_out (run_ops e [AEnter; AExit]))) /\
  (exists e, reachable e /\ idle e /\ In 5 (locals e) /\
     snd (step (run_ops e [StartDump false]) (SAddGrains 5 [ex_audio])) = done /\
     o_data (e_out (run_ops e [StartDump false; SAddGrains 5 [ex_audio]; EndDump])) =
     o_data (e_out (run_ops e [StartDump false; EndDump]))).
Proof.
  split.
  - exists (ex_enc true true). split; [apply ex_enc_reachable|]. split; [reflexivity|]. split; [apply ex_enc_from|]. vm_compute. split; reflexivity.
  - exists (run_ops (ex_enc true false) [Enter; OAddSegment 0 (ex_uuid 7) None []; Exit]).
    split; [apply reachable_run, ex_enc_reachable|]. split; [vm_compute; repeat constructor|]. split; [vm_compute; auto|]. vm_compute. split; reflexivity.
Qed.
Print Assumptions C16_lost_grains_refuted.
