(** The command line tools that put raw essence into GSF files and get it out again: /repo/mediagrains/tools/wrap_in_gsf.py 35-58,
    tools/extract_from_gsf.py 27-101, with utils/grain_wrapper.py. The options are in ToolArgs.v; messages are not modelled. *)
From Coq Require Import String.
From Verif Require Import Base GsfPrim GsfDecode CogEnums GsfEncode GsfEncState PatternTime VideoLayout PyValue GrainObj GrainSet GrainCopy GrainGsf GrainTime Wrap.
Local Open Scope list_scope.

(** expected_length: VideoGrain.py 537-543, AudioGrain.py 219-221, and Grain.py 699-704 for the rest. *)
Definition part_end (v : pv) : res Z :=
  rbind (rbind (sub $"offset" v) as_count) (fun o => rbind (rbind (sub $"length" v) as_count) (fun n => Ok (o + n))).
Definition furthest (l : list Z) : Z := fold_left (fun length e => if e >? length then e else length) l 0.
Definition expected_length (o : gobj) : res Z :=
  match o_class o with
  | KVideo => rbind (components o) (fun l => rbind (map_res part_end l) (fun es => Ok (furthest es)))
  | KAudio =>
      rbind (attr to_int $"format" o) (fun f => rbind (attr to_int $"channels" o) (fun c => rbind (attr to_int $"samples" o) (fun s =>
      Ok (size_for_audio_format f c s))))
  | _ => match field $"length" o with Ok v => to_int v | Err EKey => attr to_int $"length" o | Err e => Err e end
  end.

(** GrainWrapper.grains, grain_wrapper.py 47-67: the grains of Wrap.v as objects. *)
Fixpoint wrapped_grains {St} (k : clock) (r : rate) (read : reader St) (size now : Z) (t : gobj) (c : Z) (st : St) (fuel : nat) : yielded gobj :=
  match fuel with
  | O => ([], Some EFuel)
  | S fuel =>
      match rbind (copy_obj now t) (set_attr $"origin_timestamp" (PTime (from_count k c (fst r) (snd r)))) with
      | Err e => ([], Some e)
      | Ok o =>
          match read size st with
          | (_, Err EEof) => ([], None)
          | (_, Err e) => ([], Some e)
          | (st, Ok d) =>
              if zlen d =? 0 then ([], None)
              else match set_data (ABytes d) o with
                   | Err e => ([], Some e)
                   | Ok o => let (os, e) := wrapped_grains k r read size now t (c + 1) st fuel in (o :: os, e)
                   end
          end
      end
  end.
(** A GrainWrapper made of a template and its grains, grain_wrapper.py 28-67. [first] gives the count of the first time of a
    range that starts at a time, as in Wrap.v. *)
Definition grain_wrapper {St} (k : clock) (first : Z -> rate -> Z) (read : reader St) (now : Z) (t : gobj) (st : St) (fuel : nat) : yielded gobj :=
  match rbind (expected_length t) (fun n => rbind (attr as_time $"origin_timestamp" t) (fun s => rbind (attr as_frac $"rate" t) (fun r => Ok (n, s, r)))) with
  | Err e => ([], Some e)
  | Ok (n, s, r) => wrapped_grains k r read n now t (first s r) st fuel
  end.

(** wrap_to_gsf, wrap_in_gsf.py 35-58. The loop, 54-56: the encoder reads the grain and writes it. *)
Fixpoint feed (l : Z) (os : list gobj) (e : enc) : enc * res unit :=
  match os with
  | [] => (e, Ok tt)
  | o :: os =>
      match read_grain o with
      | Err x => (e, Err x)
      | Ok g => match GsfEncState.step e (SAddGrains l [g]) with (e, Err x) => (e, Err x) | (e, Ok _) => feed l os e end
      end
  end.
(** [id] and [created] are those the encoder makes up. What the wrapper yields does not depend on what is written meanwhile. *)
Definition wrap_to_gsf (id : bytes) (created : datetime) (t : gobj) (wrapper : yielded gobj) (out : ofile) : ofile * res unit :=
  let e := new_encoder out 9 0 id created false in
  match attr as_id $"flow_id" t with
  | Err x => (out, Err x)
  | Ok flow =>
      match enc_add_segment e flow None [] with
      | (e, Err x) => (e_out e, Err x)
      | (e, Ok l) =>
          match GsfEncState.step e (StartDump false) with
          | (e, Err x) => (e_out e, Err x)
          | (e, Ok _) =>
              match feed l (fst wrapper) e with
              | (e, Err x) => (e_out e, Err x)
              | (e, Ok _) =>
                  match snd wrapper with
                  | Some x => (e_out e, Err x)
                  | None => let (e, r) := GsfEncState.step e EndDump in (e_out e, r)
                  end
              end
          end
      end
  end.

(** extract_gsf_essence, extract_from_gsf.py 27-48: what is written, and how it ends. [write(None)] raises TypeError. *)
Fixpoint essence (now : Z) (file : bytes) (l : list item) : bytes * res unit :=
  match l with
  | [] => ([], Ok tt)
  | i :: l =>
      match rbind (item_object now file i) get_data with
      | Err x => ([], Err x)
      | Ok None => ([], Err EType)
      | Ok (Some b) => let (bs, r) := essence now file l in (b ++ bs, r)
      end
  end.
Definition ended (o : GsfDecode.outcome) : res unit := match o with Done => Ok tt | Raised e => Err e end.
(** [seekable]: a file, or a pipe. *)
Definition reading (ids : option (list Z)) (mode : lmode) (seekable : bool) : cfg := mkCfg ids mode true seekable seekable false.
Definition extract (ids : option (list Z)) (now : Z) (seekable : bool) (f : file) : bytes * res unit :=
  match decode_file (reading ids LoadImmediately seekable) f with
  | Err x => ([], Err x)
  | Ok (_, (l, _, o)) => match essence now (f_data f) l with (bs, Ok _) => (bs, ended o) | r => r end
  end.

(** gsf_probe, extract_from_gsf.py 51-101, with both options: the table of segments, each with the grains' metadata, their
    timestamps, and the time range of all. *)
Record probed := mkPr { pr_segment : segm; pr_grains : list pv; pr_times : list (pv * pv * pv); pr_range : option span }.
Definition table := list (Z * probed).
Definition row (l : Z) (t : table) : option probed := match find (fun x => fst x =? l) t with Some x => Some (snd x) | None => None end.
Fixpoint put_row (l : Z) (p : probed) (t : table) : table :=
  match t with [] => [(l, p)] | (l', q) :: t => if l =? l' then (l', p) :: t else (l', q) :: put_row l p t end.
(** 71: a dictionary by local id. *)
Definition new_table (segs : list segm) : table := fold_left (fun t s => put_row (sg_local s) (mkPr s [] [] None) t) segs [].
(** The loop, 72-99. *)
Fixpoint probe_all (k : clock) (now : Z) (file : bytes) (l : list item) (t : table) : res table :=
  match l with
  | [] => Ok t
  | i :: l =>
      rbind (item_object now file i) (fun o =>
      match row (i_local i) t with
      | None => Err EKey
      | Some p =>
          rbind (ditem $"grain" (o_meta o)) (fun m =>
          rbind (origin_timerange k o) (fun r =>
          rbind (getattr o $"origin_timestamp") (fun a => rbind (getattr o $"sync_timestamp") (fun b => rbind (getattr o $"creation_timestamp") (fun c =>
          probe_all k now file l (put_row (i_local i) (mkPr (pr_segment p) (pr_grains p ++ [m]) (pr_times p ++ [(a, b, c)])
            (Some (match pr_range p with Some x => extended x r | None => r end))) t))))))
      end)
  end.
Definition probe (k : clock) (now : Z) (seekable : bool) (f : file) : res table :=
  rbind (decode_file (reading None LoadDefer seekable) f) (fun '(s, (l, _, o)) =>
  rbind (probe_all k now (f_data f) l (new_table (match s_head s with Some h => hd_segs h | None => [] end))) (fun t =>
  match ended o with Ok _ => Ok t | Err x => Err x end)).
