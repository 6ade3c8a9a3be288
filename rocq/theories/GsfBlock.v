(** GSF block structure: entering, leaving and iterating over blocks.
    /repo/mediagrains/gsf.py SyncGSFBlock lines 444-611 and AsyncGSFBlock lines 238-394 (the two classes have the
    same logic; the async one always has file_data_start = 0). *)
From Verif Require Import Base Utf8 GsfPrim.

(** An entered block: block_start, size and tag (gsf.py 477-478, 500-513). *)
Record blk := mkBlk { b_start : Z; b_size : Z; b_tag : str }.

Definition T_SSBB : str := [83; 83; 66; 66].
Definition T_grsg : str := [103; 114; 115; 103].
Definition T_head : str := [104; 101; 97; 100].
Definition T_segm : str := [115; 101; 103; 109].
Definition T_flow : str := [102; 108; 111; 119].
Definition T_tag : str := [116; 97; 103; 32].
Definition T_grai : str := [103; 114; 97; 105].
Definition T_gbhd : str := [103; 98; 104; 100].
Definition T_grdt : str := [103; 114; 100; 116].
Definition T_tils : str := [116; 105; 108; 115].
Definition T_vghd : str := [118; 103; 104; 100].
Definition T_comp : str := [99; 111; 109; 112].
Definition T_cghd : str := [99; 103; 104; 100].
Definition T_unof : str := [117; 110; 111; 102].
Definition T_aghd : str := [97; 103; 104; 100].
Definition T_cahd : str := [99; 97; 104; 100].
Definition T_eghd : str := [101; 103; 104; 100].

Definition tag_is (t : str) (b : blk) : bool := zlist_eqb (b_tag b) t.

(** read_tag, gsf.py 613-619. *)
Definition read_tag : rd str := read_string 4.

(** The tag and size read on entry, gsf.py 500-513. *)
Definition read_tag_size : rd (str * Z) :=
  tag <- read_tag ;;
  if zlist_eqb tag T_SSBB then
    g <- read_tag ;;
    if zlist_eqb g T_grsg then ret (tag, 8) else fail EDecode
  else
    size <- read_uint 4 ;;
    ret (tag, size).

(** "actual_size = max(8, self.size)", gsf.py 523 and 537. *)
Definition actual_size (size : Z) : Z := Z.max 8 size.

(** __enter__, gsf.py 484-529; [start] is block_start. Fuel bounds the number of skipped blocks. *)
Fixpoint enter_loop (fuel : nat) (want : option str) (raise : bool) (start : Z) : rd blk :=
  match fuel with
  | O => fail EFuel
  | S k =>
      ts <- read_tag_size ;;
      let '(tag, size) := ts in
      match want with
      | None => ret (mkBlk start size tag)
      | Some w =>
          if zlist_eqb tag w then ret (mkBlk start size tag)
          else if raise then fail EDecode
          else
            (fun f p => fseek (start + actual_size size - f_base f) f p) ;;;
            start' <- base_tell ;;
            enter_loop k want raise start'
      end
  end.

(** One more than the number of bytes in the input: enough fuel for any loop that consumes at least one byte
    per iteration. *)
Definition fuel_of (f : file) : nat := S (length (f_data f)).

Definition enter (want : option str) (raise : bool) : rd blk :=
  start <- base_tell ;;
  (fun f p => enter_loop (fuel_of f) want raise start f p).

(** __exit__, gsf.py 531-542: exceptions from the seek are swallowed, so a forward-only stream that is already
    past the end of the block stays where it is. *)
Definition exit_block (b : blk) : rd unit := fun f p =>
  let target := b_start b + actual_size (b_size b) - f_base f in
  Ok (tt, if f_fwd f && (target <? p) then p else target).

(** [with SyncGSFBlock(file, want_tag=want, raise_on_wrong_tag=raise) as b: body]. An exception raised by the
    body propagates after __exit__ has moved the stream; the position after an exception is not modelled. *)
Definition with_block {A} (want : option str) (raise : bool) (body : blk -> rd A) : rd A :=
  b <- enter want raise ;;
  a <- body b ;;
  exit_block b ;;;
  ret a.

(** get_remaining, gsf.py 581-589. *)
Definition get_remaining (b : blk) : rd Z := fun f p => Ok (b_start b + b_size b - (f_base f + p), p).

(** has_child_block(strict_blocks=True), gsf.py 544-566. *)
Definition has_child (b : blk) : rd bool :=
  r <- get_remaining b ;;
  if r >=? 8 then ret true
  else if negb (r =? 0) then fail EDecode
  else ret false.

(** [for child in b.child_blocks(): s = step(child, s)], gsf.py 568-579. *)
Fixpoint children_loop {S : Type} (fuel : nat) (b : blk) (step : blk -> S -> rd S) (s : S) : rd S :=
  match fuel with
  | O => fail EFuel
  | Datatypes.S k =>
      h <- has_child b ;;
      if h then
        s' <- with_block None false (fun c => step c s) ;;
        children_loop k b step s'
      else ret s
  end.

Definition children {S : Type} (b : blk) (step : blk -> S -> rd S) (s : S) : rd S :=
  fun f p => children_loop (fuel_of f) b step s f p.

(** read_remaining_block, gsf.py 591-611 (sync) and 374-394 (async), followed by a computation on the in-memory
    copy: [inner] runs on a BytesIO holding the remaining bytes, with file_data_start set so that positions are
    those of the outer file. The outer stream is left after the bytes read. *)
Definition read_remaining (b : blk) : rd (bytes * Z) :=
  start <- base_tell ;;
  r <- get_remaining b ;;
  if r >? 0 then
    d <- fread r ;;
    ret (d, start)
  else ret ([], start).

Definition on_remaining {A} (b : blk) (inner : blk -> rd A) : rd A :=
  ds <- read_remaining b ;;
  let '(d, start) := ds in
  match inner b (mkFile d start false false) 0 with
  | Ok (a, _) => ret a
  | Err e => fail e
  end.
