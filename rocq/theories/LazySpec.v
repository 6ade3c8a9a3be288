(** What deferred grains should do. *)
From Verif Require Import Base GsfDecode LazyGrains IoBytesSpec.

(** A deferred grain not yet touched. *)
Definition untouched (g : lazy) : Prop := lz_data g = None /\ lz_used g = false.

(** Its data can be read: it is inside the file, or the file gives what there is. *)
Definition readable (file : bytes) (strict : bool) (g : lazy) : Prop :=
  0 <= lz_pos g /\ 0 <= lz_len g /\ (strict = true -> lz_pos g + lz_len g <= zlen file).

Definition lz_bytes (file : bytes) (g : lazy) : bytes := region file (lz_pos g) (lz_len g).

(** Awaiting and moving on, nothing else; [n] grains. *)
Definition inside (n : nat) (o : lop) : Prop := match o with LAwait i => (i < n)%nat | LMove _ => True | LExit => False end.

Definition awaited (ops : list lop) (i : nat) : bool := existsb (fun o => match o with LAwait j => Nat.eqb i j | _ => false end) ops.

Fixpoint last_pos (pos : Z) (ops : list lop) : Z :=
  match ops with [] => pos | LMove p :: t => last_pos p t | _ :: t => last_pos pos t end.

(** Results of awaiting while the session is open: the bytes, every time. *)
Definition while_open (file : bytes) (gs : list lazy) (o : lop) : res (option bytes) :=
  match o with
  | LAwait i => match nth_error gs i with Some g => Ok (Some (lz_bytes file g)) | None => Err EIndex end
  | _ => Ok None
  end.

(** Results of awaiting afterwards: what was awaited before is still there, the rest is not to be had. *)
Definition once_closed (file : bytes) (gs : list lazy) (before : list lop) (o : lop) : res (option bytes) :=
  match o with
  | LAwait i => match nth_error gs i with
                | Some g => if awaited before i then Ok (Some (lz_bytes file g)) else Err ERuntime
                | None => Err EIndex
                end
  | _ => Ok None
  end.

(** The payloads that eager loading gives, in order. *)
Definition payloads (l : list item) : list bytes :=
  flat_map (fun i => match i_data i with PBytes d => [d] | _ => [] end) l.

(** The data a grain has now. *)
Definition data_of (s : lsess) (i : nat) : option (option bytes) := option_map lz_data (nth_error (ls_grains s) i).

(** What awaiting the deferred grains of a file gives, by the number of the deferred grain. *)
Definition eager_result (ps : list bytes) (o : lop) : res (option bytes) :=
  match o with LAwait i => match nth_error ps i with Some d => Ok (Some d) | None => Err EIndex end | _ => Ok None end.

(** The asynchronous session that defers loading, and whether it is in the load-on-exit mode. *)
Definition lazy_cfg (k : cfg) : Prop := deferring (k_mode k) = true /\ k_back k = true /\ k_lazy k = true.
Definition on_exit (k : cfg) : bool := match k_mode k with LoadDefer => true | _ => false end.
