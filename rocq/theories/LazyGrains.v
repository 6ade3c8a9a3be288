(** Deferred grains of the asynchronous decoder: /repo/mediagrains/gsf.py 1091-1104 (the table of unloaded grains),
    1124-1139 (_read_out_of_order), 1427-1434 (__aexit__), and awaiting a grain, grains/Grain.py 384-389.

    The file has a position shared with the iteration over the grains. The sequential model takes one [await] at a
    time; [cstep] further down is the concurrent one. *)
From Verif Require Import Base GsfDecode.

(** A grain whose data is a coroutine: where its data is, whether it is loaded on exit, its [_data], and whether the
    coroutine has been awaited. *)
Record lazy := mkLz { lz_pos : Z; lz_len : Z; lz_exit : bool; lz_data : option bytes; lz_used : bool }.

(** The session: [ls_keys] are the keys of _unloaded_lazy_grains in order; the key of a grain is its number. *)
Record lsess := mkLs {
  ls_file : bytes; ls_strict : bool; ls_pos : Z; ls_exiting : bool; ls_keys : list nat; ls_grains : list lazy }.

(** The deferred grains of a decoded file, in order. *)
Definition lz_of (l : list item) : list lazy :=
  flat_map (fun i => match i_data i with PLazy pos len e => [mkLz pos len e None false] | _ => [] end) l.

Definition ls_new (file : bytes) (strict : bool) (pos : Z) (gs : list lazy) : lsess :=
  mkLs file strict pos false (seq 0 (length gs)) gs.

Fixpoint set_nth {A} (i : nat) (x : A) (l : list A) : list A :=
  match l, i with
  | [], _ => []
  | _ :: t, O => x :: t
  | y :: t, S i => y :: set_nth i x t
  end.

Definition ls_update (s : lsess) (pos : Z) (keys : list nat) (i : nat) (g : lazy) : lsess :=
  mkLs (ls_file s) (ls_strict s) pos (ls_exiting s) keys (set_nth i g (ls_grains s)).

(** _read_out_of_order, gsf.py 1124-1139. A strict file (OpenAsyncBytesIO) raises EOFError when there is not enough. *)
Definition lz_fetch (s : lsess) (i : nat) (g : lazy) : lsess * res (option bytes) :=
  let keep d := mkLz (lz_pos g) (lz_len g) (lz_exit g) d true in
  if lz_exit g || negb (ls_exiting s) then
    if existsb (Nat.eqb i) (ls_keys s) then
      let keys := filter (fun k => negb (Nat.eqb i k)) (ls_keys s) in
      let d := zfirst (lz_len g) (zskip (lz_pos g) (ls_file s)) in
      if ls_strict s && (zlen d <? lz_len g) then (ls_update s (lz_pos g + zlen d) keys i (keep None), Err EEof)
      else (ls_update s (ls_pos s) keys i (keep (Some d)), Ok (Some d))
    else (ls_update s (ls_pos s) (ls_keys s) i (keep None), Err EKey)
  else (ls_update s (ls_pos s) (ls_keys s) i (keep None), Ok None).

(** __await__, Grain.py 384-389; a coroutine that has been awaited cannot be awaited again. *)
Definition lz_await (s : lsess) (i : nat) : lsess * res (option bytes) :=
  match nth_error (ls_grains s) i with
  | None => (s, Err EIndex)
  | Some g =>
      match lz_data g with
      | Some d => (s, Ok (Some d))
      | None => if lz_used g then (s, Err ERuntime) else lz_fetch s i g
      end
  end.

(** _kill_unused_lazy_loaders, gsf.py 1097-1100: the loop over the table, which Python stops with RuntimeError at the
    first step after its size has changed. *)
Fixpoint lz_exit_loop (size : nat) (keys : list nat) (s : lsess) : lsess * res (option bytes) :=
  if Nat.eqb (length (ls_keys s)) size then
    match keys with
    | [] => (s, Ok None)
    | k :: t => match lz_await s k with
                | (s1, Ok _) => lz_exit_loop size t s1
                | (s1, Err e) => (s1, Err e)
                end
    end
  else (s, Err ERuntime).

Inductive lop :=
| LAwait (i : nat)
| LMove (pos : Z)      (* the iteration over the grains goes on *)
| LExit.

Definition ls_move (s : lsess) (pos : Z) : lsess :=
  mkLs (ls_file s) (ls_strict s) pos (ls_exiting s) (ls_keys s) (ls_grains s).

Definition lz_step (s : lsess) (o : lop) : lsess * res (option bytes) :=
  match o with
  | LAwait i => lz_await s i
  | LMove pos => (ls_move s pos, Ok None)
  | LExit =>
      let s1 := mkLs (ls_file s) (ls_strict s) (ls_pos s) true (ls_keys s) (ls_grains s) in
      lz_exit_loop (length (ls_keys s1)) (ls_keys s1) s1
  end.

Fixpoint lz_run (s : lsess) (ops : list lop) : lsess * list (res (option bytes)) :=
  match ops with
  | [] => (s, [])
  | o :: t => let (s1, r) := lz_step s o in let (s2, rs) := lz_run s1 t in (s2, r :: rs)
  end.

(** The same three steps of _read_out_of_order (1134-1136) when several awaits are in progress at once: reading happens in
    another thread (asyncbinaryio.py 105-109), so other steps may come in between. *)
Record ctask := mkCt { ct_pos : Z; ct_len : Z; ct_old : Z; ct_data : option bytes }.
Inductive cact := CSeek (i : nat) | CRead (i : nat) | CBack (i : nat).
Definition cstep (file : bytes) (st : Z * list ctask) (a : cact) : Z * list ctask :=
  let (pos, ts) := st in
  match a with
  | CSeek i => match nth_error ts i with
               | Some t => (ct_pos t, set_nth i (mkCt (ct_pos t) (ct_len t) pos None) ts)
               | None => st
               end
  | CRead i => match nth_error ts i with
               | Some t => let d := zfirst (ct_len t) (zskip pos file) in
                           (pos + zlen d, set_nth i (mkCt (ct_pos t) (ct_len t) (ct_old t) (Some d)) ts)
               | None => st
               end
  | CBack i => match nth_error ts i with Some t => (ct_old t, ts) | None => st end
  end.
