(** The decoder object GSFDecoder (/repo/mediagrains/gsf.py lines 1344-1511) over a binary file that can seek (BytesIO):
    its session, its deprecated methods [decode_file_headers] and [grains], and [decode]. *)
From Verif Require Import Base Utf8 GsfPrim GsfBlock GsfDecode GsfGroup.

(** How taking grains from a generator stopped: the generator ended, it raised, or it was left waiting for the next
    request. The position of the file is known (as [Some]) except after an exception, which includes the EOFError that
    ends a generator at the end of the file (gsf.py 1340-1341). *)
Inductive halt := Ended | Failed (e : err) | Waiting.

Record taken := mkTaken { t_items : list item; t_sess : sess; t_pos : option Z; t_halt : halt }.
Definition and_then (i : item) (t : taken) : taken := mkTaken (i :: t_items t) (t_sess t) (t_pos t) (t_halt t).

(** GSFSyncDecoderSession.grains, gsf.py 1289-1341, asked for at most [limit] grains ([None]: for all). This is the loop of
    [grains_loop], and says in addition where the file is left. *)
Fixpoint grains_take (fuel : nat) (limit : option nat) (k : cfg) (s : sess) (have_concat : bool) (f : file) (p : Z) : taken :=
  match limit with
  | Some O => mkTaken [] s (Some p) Waiting
  | _ =>
      match fuel with
      | O => mkTaken [] s None (Failed EFuel)
      | S n =>
          match (if have_concat then GsfDecode.decode_file_headers true f p else Ok (s, p)) with
          | Err EEof => mkTaken [] s None Ended
          | Err e => mkTaken [] s None (Failed e)
          | Ok (s', p') =>
              match grain_turn k (s_major s') f p' with
              | Err EEof => mkTaken [] s' None Ended
              | Err e => mkTaken [] s' None (Failed e)
              | Ok (TBreak, p'') => mkTaken [] s' (Some p'') Ended
              | Ok (TCont c, p'') => grains_take n limit k s' c f p''
              | Ok (TYield i, p'') => and_then i (grains_take n (option_map pred limit) k s' false f p'')
              end
          end
      end
  end.

(** The object, gsf.py 1356-1396: [d_data] is _file_data with its contents and position, [None] when the constructor was given
    no file or an asynchronous one; [d_session] is _open_session; [d_concat] is _support_concatenation. *)
Record decoder := mkDecoder { d_data : option (bytes * option Z); d_session : option sess; d_concat : bool }.

(** What a call does. *)
Inductive reply :=
| Header (h : head)
| Grains (l : list item) (e : halt)
| Groups (h : head) (l : list (Z * list (gmeta * payload)))
| Nothing
| Raises (e : err)
| Unknown.   (* the call reads a file whose position is not modelled *)

(** A session before its headers are read: gsf.py 829-831 and 1223-1226. *)
Definition new_session : sess := mkSess 0 0 None.

(** GSFDecoder.__enter__, gsf.py 1398-1406, with _decode_ssb_header and _decode_file_headers (1233-1267) taken apart to say
    what is left behind when they raise: the session is stored before the headers are read (1402), and stays stored; its
    version is set before it is checked (1259-1261). *)
Definition opening (d : decoder) : decoder * reply :=
  match d_data d with
  | None => (d, Raises EType)
  | Some (_, None) => (d, Unknown)
  | Some (data, Some p) =>
      let f := mkFile data 0 false false in
      let left s q := mkDecoder (Some (data, q)) (Some s) (d_concat d) in
      match read_string 8 f p with
      | Err e => (left new_session None, Raises e)
      | Ok (t, p1) =>
          if zlist_eqb t T_SSBBgrsg then
            match decode_ssb_header true f p1 with
            | Err e => (left new_session None, Raises e)
            | Ok ((major, minor), p2) =>
                if version_ok major then
                  match eof_to_decode (with_block (Some T_head) false (fun b => on_remaining b decode_head)) f p2 with
                  | Err e => (left (mkSess major minor None) None, Raises e)
                  | Ok (h, p3) => (left (mkSess major minor (Some h)) (Some p3), Header h)
                  end
                else (left (mkSess major minor None) (Some p2), Raises EBadVersion)
            end
          else (left new_session (Some p1), Raises EBadType)
      end
  end.

(** GSFDecoder.__exit__, gsf.py 1408-1410. *)
Definition closing (d : decoder) : decoder := mkDecoder (d_data d) None (d_concat d).

(** The mode of the deprecated GSFDecoder.grains, gsf.py 1470-1475. *)
Definition old_mode (skip_data load_lazily : bool) : lmode :=
  if load_lazily then LoadDefer else if skip_data then LoadNever else LoadImmediately.

(** A file that can seek, read synchronously. *)
Definition cfg_of (d : decoder) (ids : option (list Z)) (m : lmode) : cfg := mkCfg ids m (d_concat d) true true false.

(** Taking grains from [session.grains(local_ids, loading_mode)]. *)
Definition session_grains (d : decoder) (s : sess) (data : bytes) (p : Z) (ids : option (list Z)) (m : lmode) (limit : option nat)
  : decoder * taken :=
  let f := mkFile data 0 false false in
  let t := grains_take (fuel_of f) limit (cfg_of d ids m) s false f p in
  (mkDecoder (Some (data, t_pos t)) (Some (t_sess t)) (d_concat d), t).

(** GSFDecoder.grains, gsf.py 1449-1477: the generator it returns is asked for [limit] grains. *)
Definition old_grains (d : decoder) (ids : option (list Z)) (skip_data load_lazily : bool) (limit : option nat) : decoder * reply :=
  match d_session d with
  | None => (d, Raises ERuntime)
  | Some s =>
      match d_data d with
      | Some (data, Some p) =>
          let (d', t) := session_grains d s data p ids (old_mode skip_data load_lazily) limit in
          (d', Grains (t_items t) (t_halt t))
      | _ => (d, Unknown)
      end
  end.

(** _synchronously_decode, gsf.py 1490-1499. When __enter__ raises, __exit__ is not called. *)
Definition decode_all (d : decoder) : decoder * reply :=
  match opening d with
  | (d1, Header _) =>
      match d_session d1, d_data d1 with
      | Some s, Some (data, Some p) =>
          let (d2, t) := session_grains d1 s data p None LoadImmediately None in
          (closing d2,
           match t_halt t with
           | Failed e => Raises e
           | _ => match s_head (t_sess t) with Some h => Groups h (group (map keyed (t_items t))) | None => Raises ERuntime end
           end)
      | _, _ => (d1, Unknown)
      end
  | r => r
  end.

(** decode, gsf.py 1501-1511: bytes replace the file. *)
Definition decode (d : decoder) (s : option bytes) : decoder * reply :=
  decode_all (match s with Some b => mkDecoder (Some (b, Some 0)) (d_session d) (d_concat d) | None => d end).

(** The calls; [decode_file_headers] (gsf.py 1435-1446) enters and returns the headers, [CLeave] is the end of a with
    statement. *)
Inductive call :=
| CHeaders
| CGrains (ids : option (list Z)) (skip_data load_lazily : bool) (limit : option nat)
| CDecode (s : option bytes)
| CLeave.

Definition do_call (d : decoder) (c : call) : decoder * reply :=
  match c with
  | CHeaders => opening d
  | CGrains ids skip lazy limit => old_grains d ids skip lazy limit
  | CDecode s => decode d s
  | CLeave => (closing d, Nothing)
  end.

Fixpoint do_calls (d : decoder) (l : list call) : decoder * list reply :=
  match l with
  | [] => (d, [])
  | c :: l => let (d1, r) := do_call d c in let (d2, rs) := do_calls d1 l in (d2, r :: rs)
  end.
