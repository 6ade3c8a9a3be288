(** load, loads and GSFDecoder.decode: iterate over the whole stream and group the grains by local id. *)
From Verif Require Import Base Utf8 GsfPrim GsfBlock GsfDecode.

(** gsf.py 1494-1496 (async 1483-1485): "if key not in grains: grains[key] = []" then append. A dict is its entries
    in insertion order. *)
Fixpoint put {A} (d : list (Z * list A)) (key : Z) (x : A) : list (Z * list A) :=
  match d with
  | [] => [(key, [x])]
  | (k, l) :: t => if k =? key then (k, l ++ [x]) :: t else (k, l) :: put t key x
  end.

(** The loop over dec.grains, gsf.py 1493-1496 and 1482-1485. *)
Fixpoint group_from {A} (d : list (Z * list A)) (l : list (Z * A)) : list (Z * list A) :=
  match l with
  | [] => d
  | (key, x) :: t => group_from (put d key x) t
  end.
Definition group {A} (l : list (Z * A)) : list (Z * list A) := group_from [] l.

(** What one grain is turned into: the metadata and the payload that go to parse_grain (the grain factory itself is
    not modelled here). *)
Definition keyed (i : item) : Z * (gmeta * payload) := (i_local i, (i_meta i, i_data i)).

(** _synchronously_decode (gsf.py 1490-1499) and _asynchronously_decode (1479-1488): local_ids is None and the mode is
    LOAD_IMMEDIATELY; the header returned is the one in force at the end. RuntimeError when there is none cannot
    happen, because the header was read when the context was entered. *)
Definition load (concat back fwd lazy : bool) (f : file) : res (head * list (Z * list (gmeta * payload))) :=
  match decode_file (mkCfg None LoadImmediately concat back fwd lazy) f with
  | Err e => Err e
  | Ok (_, (l, s, Raised e)) => Err e
  | Ok (_, (l, s, Done)) =>
      match s_head s with
      | Some h => Ok (h, group (map keyed l))
      | None => Err ERuntime
      end
  end.
(** loads (gsf.py 86-104) reads a BytesIO, which can seek; extra keyword arguments are dropped, so concatenations are
    always supported. *)
Definition loads (data : bytes) : res (head * list (Z * list (gmeta * payload))) :=
  load true true true false (mkFile data 0 false false).
