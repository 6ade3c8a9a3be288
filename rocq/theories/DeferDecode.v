(** Decoded grains as pairs, their payloads deferred as the decoder defers them: /repo/mediagrains/gsf.py 1337, 1326-1328 and
    1195-1197. *)
From Verif Require Import Base GsfDecode PyValue GrainObj GrainGsf IoBytes DeferOps.

(** The grain made of a decoded item, where [data] is the file and [p] its position: an IOBytes is a new object each time. An
    item that is still to be awaited has no payload yet. *)
Definition arrival (now : Z) (data : bytes) (p : Z) (h : store) (i : GsfDecode.item) : store * res dgrain :=
  match item_object now data i with
  | Ok o =>
      match i_data i with
      | PIOBytes pos len => (h ++ [io_new pos len data p], Ok (mkDg (o_meta o) (Some (Defer (List.length h)))))
      | PBytes b => (h, Ok (mkDg (o_meta o) (Some (Plain b))))
      | _ => (h, Ok (mkDg (o_meta o) None))
      end
  | Err e => (h, Err e)
  end.
(** The same item of the same file, decoded twice. *)
Definition twice (now : Z) (data : bytes) (p : Z) (i : GsfDecode.item) : store * res (dgrain * dgrain) :=
  let (h1, r1) := arrival now data p [] i in
  let (h2, r2) := arrival now data p h1 i in (h2, rbind r1 (fun g => rbind r2 (fun g' => Ok (g, g')))).
