(** The state of the GSF encoder: /repo/mediagrains/gsf.py lines 1586-2118 (open encoders and GSFEncoder), 2166-2262,
    2320-2325 and 2450-2486 (segments), 148-187 (dump and dumps).

    Python objects are records in one state: the encoder, the segments of its shared dictionary [_segments] (insertion
    order), every open-encoder object ever created (numbered in order of creation, so that segments can refer to the one
    that created them), and the output. A method call is a function from states to states and an outcome, because a call
    that raises can have changed the state first. *)
From Verif Require Import Base Utf8 GsfPrim GsfBlock GsfDecode CogEnums GsfEncode.

(** The output: a BytesIO or a file opened for writing ([o_seek]), or an output that cannot seek, such as a pipe.
    Writes are assumed to be complete (no short raw writes); the asynchronous files behave likewise. *)
Record ofile := mkOut { o_data : bytes; o_pos : Z; o_seek : bool }.

(** BytesIO.write: overwrites from the current position, zero-filling a gap; an output that cannot seek appends. *)
Definition o_write (o : ofile) (d : bytes) : ofile :=
  if o_seek o then
    mkOut (zfirst (o_pos o) (o_data o) ++ zeros (Z.to_nat (o_pos o - zlen (o_data o))) ++ d ++
           zskip (o_pos o + zlen d) (o_data o))
          (o_pos o + zlen d) true
  else mkOut (o_data o ++ d) (o_pos o) false.

Definition o_seek_to (o : ofile) (p : Z) : ofile := mkOut (o_data o) p (o_seek o).

(** file.truncate() at the current position. *)
Definition o_truncate (o : ofile) : ofile := mkOut (zfirst (o_pos o) (o_data o)) (o_pos o) (o_seek o).

(** What a segment's [_parent] is: the GSFEncoder or one of the open encoders. *)
Inductive parent := ParEncoder | ParOpen (n : nat).

(** GSFEncoderSegment.__init__, gsf.py 2169-2189: [st_e] holds id, local_id, tags and flow, [st_wc] is _write_count,
    [st_cpos] is _count_pos, [st_active] is the segment's own _active_dump, [st_grains] is _grains. *)
Record segst := mkSt {
  st_e : eseg; st_wc : Z; st_cpos : Z; st_active : bool; st_grains : list grain; st_parent : parent }.

Definition st_local (s : segst) : Z := es_local (st_e s).
Definition st_id (s : segst) : bytes := es_id (st_e s).

(** OpenGSFEncoderBase.__init__, gsf.py 1587-1604: only the parts of an open encoder that are not shared with the
    GSFEncoder: [ss_next] is its copy of _next_local, [ss_active] is _active_dump. *)
Record sess_st := mkSs { ss_async : bool; ss_next : Z; ss_active : bool }.

(** GSFEncoder.__init__, gsf.py 1915-1957. [e_sess] are all open encoders created so far, [e_sync] and [e_async] are
    _open_encoder and _open_async_encoder. *)
Record enc := mkEnc {
  e_major : Z; e_minor : Z; e_id : bytes; e_created : datetime; e_streaming : bool;
  e_tags : list (str * str); e_segs : list segst; e_next : Z;
  e_sess : list sess_st; e_sync : option nat; e_async : option nat; e_out : ofile }.

Definition set_tags (e : enc) t := mkEnc (e_major e) (e_minor e) (e_id e) (e_created e) (e_streaming e)
  t (e_segs e) (e_next e) (e_sess e) (e_sync e) (e_async e) (e_out e).
Definition set_segs (e : enc) s := mkEnc (e_major e) (e_minor e) (e_id e) (e_created e) (e_streaming e)
  (e_tags e) s (e_next e) (e_sess e) (e_sync e) (e_async e) (e_out e).
Definition set_next (e : enc) n := mkEnc (e_major e) (e_minor e) (e_id e) (e_created e) (e_streaming e)
  (e_tags e) (e_segs e) n (e_sess e) (e_sync e) (e_async e) (e_out e).
Definition set_sess (e : enc) l := mkEnc (e_major e) (e_minor e) (e_id e) (e_created e) (e_streaming e)
  (e_tags e) (e_segs e) (e_next e) l (e_sync e) (e_async e) (e_out e).
Definition set_sync (e : enc) x := mkEnc (e_major e) (e_minor e) (e_id e) (e_created e) (e_streaming e)
  (e_tags e) (e_segs e) (e_next e) (e_sess e) x (e_async e) (e_out e).
Definition set_async (e : enc) x := mkEnc (e_major e) (e_minor e) (e_id e) (e_created e) (e_streaming e)
  (e_tags e) (e_segs e) (e_next e) (e_sess e) (e_sync e) x (e_out e).
Definition set_out (e : enc) o := mkEnc (e_major e) (e_minor e) (e_id e) (e_created e) (e_streaming e)
  (e_tags e) (e_segs e) (e_next e) (e_sess e) (e_sync e) (e_async e) o.

(** Open encoder number [n]; the default is never used for a number that has been handed out. *)
Definition get_ss (e : enc) (n : nat) : sess_st := nth n (e_sess e) (mkSs false 1 false).
Fixpoint upd_nth {A} (n : nat) (f : A -> A) (l : list A) : list A :=
  match l, n with
  | [], _ => []
  | x :: t, O => f x :: t
  | x :: t, S m => x :: upd_nth m f t
  end.
Definition set_active (e : enc) (n : nat) (b : bool) : enc :=
  set_sess e (upd_nth n (fun s => mkSs (ss_async s) (ss_next s) b) (e_sess e)).
Definition set_ss_next (e : enc) (n : nat) (v : Z) : enc :=
  set_sess e (upd_nth n (fun s => mkSs (ss_async s) v (ss_active s)) (e_sess e)).

(** [local_id in self._segments] and [self._segments[local_id]]. *)
Definition find_seg (local : Z) (l : list segst) : option segst := find (fun s => st_local s =? local) l.
Definition upd_seg (local : Z) (f : segst -> segst) (l : list segst) : list segst :=
  map (fun s => if st_local s =? local then f s else s) l.

(** The method calls. UUIDs that are generated (uuid1) are given as [fresh]. A segment object is named by its local
    id, an open encoder by its number. [EndDump], [Exit] and the rest are the methods of GSFEncoder. *)
Inductive op :=
| EAddTag (kv : str * str)
| EAddSegment (id : bytes) (local : option Z) (tags : list (str * str))
| EAddGrains (gs : list grain) (sid : option bytes) (local : option Z) (fresh : bytes)
| OAddTag (n : nat) (kv : str * str)
| OAddSegment (n : nat) (id : bytes) (local : option Z) (tags : list (str * str))
| OAddGrains (n : nat) (gs : list grain) (sid : option bytes) (local : option Z) (fresh : bytes)
| SAddTag (local : Z) (kv : str * str)
| SAddFlow (local : Z) (fl : eflow)
| SAddGrains (local : Z) (gs : list grain)
| Enter | Exit | AEnter | AExit
| StartDump (all_at_once : bool)
| EndDump.

Definition outcome := res unit.
Definition done : outcome := Ok tt.

Definition new_seg (id : bytes) (local : Z) (tags : list (str * str)) (p : parent) : segst :=
  mkSt (mkESeg local id None tags) 0 (-1) false [] p.

(** The local id and the new _next_local computed first in both add_segment methods, gsf.py 1628-1631, 2036-2039. *)
Definition pick_local (next : Z) (local : option Z) : Z := match local with None => next | Some l => l end.
Definition bump_next (next l : Z) : Z := if l >=? next then l + 1 else next.

(** GSFEncoder.add_segment, gsf.py 2025-2048. *)
Definition enc_add_segment (e : enc) (id : bytes) (local : option Z) (tags : list (str * str)) : enc * res Z :=
  match e_sync e with
  | Some _ => (e, Err EActive)
  | None =>
      let l := pick_local (e_next e) local in
      let e1 := set_next e (bump_next (e_next e) l) in
      match find_seg l (e_segs e1) with
      | Some _ => (e1, Err EEncode)
      | None => (set_segs e1 (e_segs e1 ++ [new_seg id l tags ParEncoder]), Ok l)
      end
  end.

(** OpenGSFEncoderBase.add_segment, gsf.py 1621-1644. *)
Definition open_add_segment (e : enc) (n : nat) (id : bytes) (local : option Z) (tags : list (str * str)) : enc * res Z :=
  let l := pick_local (ss_next (get_ss e n)) local in
  let e1 := set_ss_next e n (bump_next (ss_next (get_ss e n)) l) in
  match find_seg l (e_segs e1) with
  | Some _ => (e1, Err EEncode)
  | None =>
      if ss_active (get_ss e n) then (e1, Err EActive)
      else (set_segs e1 (e_segs e1 ++ [new_seg id l tags (ParOpen n)]), Ok l)
  end.

(** sorted([...])[0] if there is one, gsf.py 1648-1651, 2076-2080. *)
Fixpoint zmin (l : list Z) : option Z :=
  match l with
  | [] => None
  | x :: t => match zmin t with None => Some x | Some y => Some (Z.min x y) end
  end.
Definition id_matches (sid : option bytes) (s : segst) : bool :=
  match sid with None => true | Some i => zlist_eqb (st_id s) i end.
Definition find_local (segs : list segst) (sid : option bytes) (local : option Z) : option Z :=
  match local with
  | Some l => Some l
  | None => zmin (map st_local (filter (id_matches sid) segs))
  end.

(** OpenGSFEncoderBase._get_segment, gsf.py 1646-1659. *)
Definition open_get_segment (e : enc) (n : nat) (sid : option bytes) (local : option Z) (fresh : bytes) : enc * res Z :=
  let create local' :=
    if ss_active (get_ss e n) then (e, Err EEncode)
    else open_add_segment e n (match sid with Some i => i | None => fresh end) local' [] in
  match find_local (e_segs e) sid local with
  | Some l => match find_seg l (e_segs e) with Some _ => (e, Ok l) | None => create (Some l) end
  | None => create None
  end.

(** encode_grain's effect on the segment, gsf.py 2323. *)
Definition bump_wc (s : segst) : segst :=
  mkSt (st_e s) (st_wc s + 1) (st_cpos s) (st_active s) (st_grains s) (st_parent s).

(** The loop of add_grains on an active dump, gsf.py 1743-1745, 1829-1831: grains are written one by one until one
    cannot be encoded. *)
Fixpoint write_grains (e : enc) (local : Z) (gs : list grain) : enc * outcome :=
  match gs with
  | [] => (e, done)
  | g :: t =>
      match enc_grain (e_major e) local g with
      | Err x => (e, Err x)
      | Ok bs => write_grains (set_out (set_segs e (upd_seg local bump_wc (e_segs e))) (o_write (e_out e) bs)) local t
      end
  end.

(** _get_parent_open_encoder and its _active_dump, gsf.py 2191-2197: an asynchronous open encoder does not count. *)
Definition parent_active (e : enc) (p : parent) : bool :=
  match p with
  | ParEncoder => match e_sync e with Some n => ss_active (get_ss e n) | None => false end
  | ParOpen n => negb (ss_async (get_ss e n)) && ss_active (get_ss e n)
  end.

Definition push_grains (gs : list grain) (s : segst) : segst :=
  mkSt (st_e s) (st_wc s) (st_cpos s) (st_active s) (st_grains s ++ gs) (st_parent s).

(** GSFEncoderSegment.add_grain and add_grains, gsf.py 2470-2486. When the parent is dumping it is asked to add the
    grains with this segment's ids; its lookup finds the segment again (the dictionary is shared), so the call
    is the writing loop. An unknown local id means there is no such segment object. *)
Definition seg_add_grains (e : enc) (local : Z) (gs : list grain) : enc * outcome :=
  match find_seg local (e_segs e) with
  | None => (e, Err EKey)
  | Some s =>
      if parent_active e (st_parent s) then write_grains e local gs
      else (set_segs e (upd_seg local (push_grains gs) (e_segs e)), done)
  end.

(** OpenGSFEncoder.add_grains, gsf.py 1731-1747, and OpenAsyncGSFEncoder.add_grains, 1817-1833. (The test for an open
    file in the latter is always true during a dump: _start_dump opens it first, 1843-1847.) *)
Definition open_add_grains (e : enc) (n : nat) (gs : list grain) (sid : option bytes) (local : option Z) (fresh : bytes)
  : enc * outcome :=
  match open_get_segment e n sid local fresh with
  | (e1, Err x) => (e1, Err x)
  | (e1, Ok l) => if ss_active (get_ss e1 n) then write_grains e1 l gs else seg_add_grains e1 l gs
  end.

(** GSFEncoder.add_grains, gsf.py 2062-2085. *)
Definition enc_add_grains (e : enc) (gs : list grain) (sid : option bytes) (local : option Z) (fresh : bytes)
  : enc * outcome :=
  match e_sync e with
  | Some n => open_add_grains e n gs sid local fresh
  | None =>
      let create local' :=
        match enc_add_segment e (match sid with Some i => i | None => fresh end) local' [] with
        | (e1, Err x) => (e1, Err x)
        | (e1, Ok l) => seg_add_grains e1 l gs
        end in
      match find_local (e_segs e) sid local with
      | Some l => match find_seg l (e_segs e) with Some _ => seg_add_grains e l gs | None => create (Some l) end
      | None => create None
      end
  end.

(** encode_all_grains of one segment, gsf.py 2254-2260: the buffer is emptied only if every grain can be encoded. *)
Fixpoint enc_grain_list (major : Z) (s : segst) (gs : list grain) : segst * res bytes :=
  match gs with
  | [] => (mkSt (st_e s) (st_wc s) (st_cpos s) (st_active s) [] (st_parent s), Ok [])
  | g :: t =>
      match enc_grain major (st_local s) g with
      | Err x => (s, Err x)
      | Ok bs => match enc_grain_list major (bump_wc s) t with
                 | (s', Err x) => (s', Err x)
                 | (s', Ok r) => (s', Ok (bs ++ r))
                 end
      end
  end.

(** _encode_all_grains, gsf.py 1698-1702. *)
Fixpoint enc_all_grains (major : Z) (segs : list segst) : list segst * res bytes :=
  match segs with
  | [] => ([], Ok [])
  | s :: t =>
      match enc_grain_list major s (st_grains s) with
      | (s', Err x) => (s' :: t, Err x)
      | (s', Ok bs) => match enc_all_grains major t with
                       | (t', Err x) => (s' :: t', Err x)
                       | (t', Ok r) => (s' :: t', Ok (bs ++ r))
                       end
      end
  end.

(** The count that goes into a segment header, gsf.py 2230-2233 with the count property 2199-2201. *)
Definition header_count (all_at_once : bool) (s : segst) : Z :=
  if all_at_once then zlen (st_grains s) + st_wc s else -1.

(** gsf.py 2221. *)
Definition activate (s : segst) : segst := mkSt (st_e s) (st_wc s) (st_cpos s) true (st_grains s) (st_parent s).

(** _set_segment_offsets, gsf.py 1661-1663 with set_size_position 2251-2252. *)
Fixpoint set_offsets (segs : list segst) (offs : list Z) (pos : Z) : list segst :=
  match segs, offs with
  | s :: t, o :: os => mkSt (st_e s) (st_wc s) (pos + o) (st_active s) (st_grains s) (st_parent s) :: set_offsets t os pos
  | _, _ => segs
  end.

(** _start_dump, gsf.py 1749-1767 and 1835-1860. *)
Definition start_dump (e : enc) (n : nat) (all_at_once : bool) : enc * outcome :=
  let e1 := set_active e n true in
  let o1 := if o_seek (e_out e1) then o_truncate (o_seek_to (e_out e1) 0) else e_out e1 in
  let file_header := enc_file_header (e_major e1) (e_minor e1) in
  let counted := map (fun s => (st_e s, header_count all_at_once s)) (e_segs e1) in
  let head_block := enc_head (e_id e1) (e_created e1) counted (e_tags e1) in
  let offsets := head_offsets (zlen (enc_head_prefix (e_id e1) (e_created e1) (map fst counted) (e_tags e1))) counted in
  let segs1 := map activate (e_segs e1) in
  let segs2 := if negb all_at_once && o_seek o1
               then set_offsets segs1 offsets (o_pos o1 + zlen file_header) else segs1 in
  match enc_all_grains (e_major e1) segs2 with
  | (segs3, Err x) => (set_out (set_segs e1 segs3) o1, Err x)
  | (segs3, Ok bs) => (set_out (set_segs e1 segs3) (o_write o1 (file_header ++ head_block ++ bs)), done)
  end.

(** The loop of _end_dump, gsf.py 1770-1775 and 1863-1870. *)
Fixpoint patch_counts (segs : list segst) (o : ofile) : ofile :=
  match segs with
  | [] => o
  | s :: t =>
      patch_counts t
        (if o_seek o && negb (st_cpos s =? -1)
         then o_seek_to (o_write (o_seek_to o (st_cpos s)) (enc_sint 8 (st_wc s))) (o_pos o)
         else o)
  end.

(** _end_dump, gsf.py 1769-1780 and 1862-1876. *)
Definition end_dump (e : enc) (n : nat) : enc :=
  let o1 := patch_counts (e_segs e) (e_out e) in
  if ss_active (get_ss e n) then set_active (set_out e (o_write o1 terminator)) n false
  else set_out e o1.

(** A new open encoder with the encoder's current _next_local; gsf.py 1963-1971, 1989-1997, 2099-2107. The tests on
    the type of the output (1960, 1985) are not modelled: the output is of the right kind. *)
Definition open_session (e : enc) (async : bool) : enc * nat :=
  let n := List.length (e_sess e) in
  let e1 := set_sess e (e_sess e ++ [mkSs async (e_next e) false]) in
  (if async then set_async e1 (Some n) else set_sync e1 (Some n), n).

(** gsf.py 1980-1982, 2006-2008, 2115-2117. *)
Definition close_session (e : enc) (n : nat) (async : bool) : enc :=
  let e1 := end_dump e n in
  let e2 := set_next e1 (ss_next (get_ss e1 n)) in
  if async then set_async e2 None else set_sync e2 None.

(** __enter__, gsf.py 1959-1974, and __aenter__, 1984-2000. *)
Definition enter (e : enc) (async : bool) : enc * outcome :=
  let (e1, n) := open_session e async in
  if e_streaming e then start_dump e1 n false else (e1, done).

(** __exit__, gsf.py 1976-1982, and __aexit__, 2002-2008. *)
Definition leave (e : enc) (async : bool) : enc * outcome :=
  match (if async then e_async e else e_sync e) with
  | None => (e, done)
  | Some n =>
      if e_streaming e then (close_session e n async, done)
      else match start_dump e n true with
           | (e1, Err x) => (e1, Err x)
           | (e1, Ok _) => (close_session e1 n async, done)
           end
  end.

Definition drop {A} (x : enc * res A) : enc * outcome :=
  (fst x, match snd x with Ok _ => done | Err x => Err x end).

Definition add_seg_tag (kv : str * str) (s : segst) : segst :=
  mkSt (mkESeg (st_local s) (st_id s) (es_flow (st_e s)) (es_tags (st_e s) ++ [kv]))
       (st_wc s) (st_cpos s) (st_active s) (st_grains s) (st_parent s).
Definition set_seg_flow (fl : eflow) (s : segst) : segst :=
  mkSt (mkESeg (st_local s) (st_id s) (Some fl) (es_tags (st_e s)))
       (st_wc s) (st_cpos s) (st_active s) (st_grains s) (st_parent s).

(** add_tag and add_flow of a segment, gsf.py 2450-2468. *)
Definition seg_change (e : enc) (local : Z) (f : segst -> segst) : enc * outcome :=
  match find_seg local (e_segs e) with
  | None => (e, Err EKey)
  | Some s => if st_active s then (e, Err EActive) else (set_segs e (upd_seg local f (e_segs e)), done)
  end.

(** One method call. *)
Definition step (e : enc) (o : op) : enc * outcome :=
  match o with
  (* GSFEncoder.add_tag, gsf.py 2018-2023 *)
  | EAddTag kv =>
      match e_sync e with Some _ => (e, Err EActive) | None => (set_tags e (e_tags e ++ [kv]), done) end
  | EAddSegment id local tags => drop (enc_add_segment e id local tags)
  | EAddGrains gs sid local fresh => enc_add_grains e gs sid local fresh
  (* OpenGSFEncoderBase.add_tag, gsf.py 1614-1619 *)
  | OAddTag n kv =>
      if ss_active (get_ss e n) then (e, Err EActive) else (set_tags e (e_tags e ++ [kv]), done)
  | OAddSegment n id local tags => drop (open_add_segment e n id local tags)
  | OAddGrains n gs sid local fresh => open_add_grains e n gs sid local fresh
  | SAddTag local kv => seg_change e local (add_seg_tag kv)
  | SAddFlow local fl => seg_change e local (set_seg_flow fl)
  | SAddGrains local gs => seg_add_grains e local gs
  | Enter => enter e false
  | Exit => leave e false
  | AEnter => enter e true
  | AExit => leave e true
  (* start_dump, gsf.py 2095-2108 *)
  | StartDump all_at_once => let (e1, n) := open_session e false in start_dump e1 n all_at_once
  (* end_dump, gsf.py 2111-2117 *)
  | EndDump => match e_sync e with None => (e, done) | Some n => (close_session e n false, done) end
  end.

(** A history of calls; the caller catches whatever is raised and goes on. *)
Fixpoint run_ops (e : enc) (ops : list op) : enc :=
  match ops with
  | [] => e
  | o :: t => run_ops (fst (step e o)) t
  end.

(** GSFEncoder.__init__ without segments and tags, gsf.py 1924-1943. *)
Definition new_encoder (out : ofile) (major minor : Z) (id : bytes) (created : datetime) (streaming : bool) : enc :=
  mkEnc major minor id created streaming [] [] 1 [] None None out.

(** The segments and tags arguments of __init__, gsf.py 1945-1957: an exception other than TypeError and IndexError
    leaves __init__ unchanged, so the outcome is that of the first call that fails. *)
Fixpoint run_all (e : enc) (ops : list op) : enc * outcome :=
  match ops with
  | [] => (e, done)
  | o :: t => match step e o with (e1, Ok _) => run_all e1 t | (e1, Err x) => (e1, Err x) end
  end.

Definition init_encoder (out : ofile) (major minor : Z) (id : bytes) (created : datetime) (streaming : bool)
  (segments : list (bytes * option Z * list (str * str))) (tags : list (str * str)) : enc * outcome :=
  run_all (new_encoder out major minor id created streaming)
    (map (fun s => EAddSegment (fst (fst s)) (snd (fst s)) (snd s)) segments ++ map EAddTag tags).

(** dump, gsf.py 148-168, on an encoder built from the keyword arguments: [with cls(fp, **kwargs) as enc], one segment,
    the grains. A raising body still runs __exit__. The new segment is the one add_segment returns. *)
Definition dump (e : enc) (gs : list grain) (seg_id : bytes) (segment_tags : list (str * str)) : enc * outcome :=
  match step e Enter with
  | (e1, Err x) => (e1, Err x)
  | (e1, Ok _) =>
      let n := match e_sync e1 with Some n => n | None => 0%nat end in
      let (e2, r) :=
        match open_add_segment e1 n seg_id None segment_tags with
        | (e2, Err x) => (e2, Err x)
        | (e2, Ok l) => seg_add_grains e2 l gs
        end in
      match step e2 Exit with
      | (e3, Err x) => (e3, Err x)
      | (e3, Ok _) => (e3, r)
      end
  end.

(** dumps, gsf.py 171-187. *)
Definition dumps (gs : list grain) (seg_id : bytes) (segment_tags : list (str * str)) (major minor : Z) (id : bytes)
  (created : datetime) (streaming : bool) : res bytes :=
  match dump (new_encoder (mkOut [] 0 true) major minor id created streaming) gs seg_id segment_tags with
  | (e, Ok _) => Ok (o_data (e_out e))
  | (_, Err x) => Err x
  end.
