(** Raw essence read from a file or a pipe and cut into grains: /repo/mediagrains/tools/_file_or_pipe.py,
    utils/grain_wrapper.py, utils/adts_aac_parser.py and utils/adts_aac_grain_wrapper.py. *)
From Verif Require Import Base PatternTime.

(** A file object as its unread bytes, in the fragments in which it hands them out: a read gets no more than the first
    fragment. A buffered file (open(..., "rb"), sys.stdin.buffer) is one fragment: its reads are only short at the end.
    Fragments are not empty: an empty read means the end. *)
Definition source := list bytes.

(** [f.read(size)]: everything for -1; io.BufferedReader refuses other negative sizes. *)
Definition src_read (size : Z) (s : source) : source * res bytes :=
  if size =? -1 then ([], Ok (concat s))
  else if size <? 0 then (s, Err EValue)
  else match s with
       | [] => ([], Ok [])
       | f :: rest => (if zlen f <=? size then rest else zskip size f :: rest, Ok (zfirst size f))
       end.

(** InputStreamWrapper, _file_or_pipe.py 22-25: the stream and [_pos]. *)
Record pipe := mkPipe { p_src : source; p_pos : Z }.

(** The loop of read, _file_or_pipe.py 36-41. [s] is the variable of that name. *)
Fixpoint fill (fuel : nat) (size s : Z) (out : bytes) (src : source) : source * res bytes :=
  if zlen out <? size then
    match fuel with
    | O => (src, Err EFuel)
    | S fuel =>
        match src_read s src with
        | (src, Err e) => (src, Err e)
        | (src, Ok b) => if zlen b =? 0 then (src, Err EEof) else fill fuel size (s - zlen b) (out ++ b) src
        end
    end
  else (src, Ok out).

(** InputStreamWrapper.read, _file_or_pipe.py 30-44: [_pos] is not moved when the loop raises. *)
Definition pipe_read (size : Z) (p : pipe) : pipe * res bytes :=
  match (if size =? -1 then src_read (-1) (p_src p) else fill (S (length (p_src p))) size size [] (p_src p)) with
  | (src, Ok out) => (mkPipe src (p_pos p + zlen out), Ok out)
  | (src, Err e) => (mkPipe src (p_pos p), Err e)
  end.

(** InputStreamWrapper.seek, _file_or_pipe.py 46-57. *)
Definition pipe_seek (offset whence : Z) (p : pipe) : pipe * res Z :=
  if whence =? 2 then (p, Err EUnsupported)
  else
    let offset := if whence =? 0 then offset - p_pos p else offset in
    if offset <? 0 then (p, Err EUnsupported)
    else
      let src := if 0 <? offset then fst (src_read offset (p_src p)) else p_src p in
      (mkPipe src (p_pos p + offset), Ok (p_pos p + offset)).

(** A sequence of calls, up to and including the first that raises. *)
Inductive pop := PRead (size : Z) | PSeek (offset whence : Z) | PTell.
Inductive pout := OutBytes (b : bytes) | OutPos (n : Z) | OutErr (e : err).
Definition pipe_op (o : pop) (p : pipe) : pipe * pout :=
  match o with
  | PRead n => let (p, r) := pipe_read n p in (p, match r with Ok b => OutBytes b | Err e => OutErr e end)
  | PSeek n w => let (p, r) := pipe_seek n w p in (p, match r with Ok n => OutPos n | Err e => OutErr e end)
  | PTell => (p, OutPos (p_pos p))
  end.
Fixpoint pipe_run (ops : list pop) (p : pipe) : list pout :=
  match ops with
  | [] => []
  | o :: ops =>
      match pipe_op o p with
      | (p, OutErr e) => [OutErr e]
      | (p, out) => out :: pipe_run ops p
      end
  end.

(** What a wrapper reads from: [read size state]. *)
Definition reader St := Z -> St -> St * res bytes.

(** A wrapped grain: a copy of the template, its origin timestamp and its payload. *)
Record wrapped A := mkWg { wg_template : A; wg_origin : Z; wg_data : bytes }.
Arguments mkWg {A}.  Arguments wg_template {A}.  Arguments wg_origin {A}.  Arguments wg_data {A}.

(** GrainWrapper.grains, grain_wrapper.py 47-67. The times are those of counts [c], [c + 1], ... at the rate; how
    TimeRange.at_rate finds the first count from the origin timestamp belongs to mediatimestamp. [size] is
    [self.frame_size], the expected length of the template. *)
Fixpoint grains {St A} (k : clock) (r : rate) (read : reader St) (size : Z) (t : A) (c : Z) (st : St) (fuel : nat) : yielded (wrapped A) :=
  match fuel with
  | O => ([], Some EFuel)
  | S fuel =>
      match read size st with
      | (_, Err EEof) => ([], None)
      | (_, Err e) => ([], Some e)
      | (st, Ok d) =>
          if zlen d =? 0 then ([], None)
          else let (gs, e) := grains k r read size t (c + 1) st fuel in
               (mkWg t (from_count k c (fst r) (snd r)) d :: gs, e)
      end
  end.

(** adts_aac_parser.py 18-20. *)
Definition MIN_ADTS_HEADER_SIZE : Z := 7.
Definition SAMPLE_FREQUENCIES : list Z := [96000; 88200; 64000; 48000; 44100; 32000; 24000; 22050; 16000; 12000; 11025; 8000; 7350].
Definition CHANNEL_COUNTS : list Z := [0; 1; 2; 3; 4; 5; 6; 8].

(** FrameInfo, adts_aac_parser.py 23-29. *)
Record adts_info := mkAi { ai_size : Z; ai_object : Z; ai_rate : Z; ai_channels : Z }.

(** ADTSAACParser.parse_header, adts_aac_parser.py 33-68. *)
Definition parse_header (d : bytes) : res adts_info :=
  let at_ n := nth n d 0 in
  if zlen d <? MIN_ADTS_HEADER_SIZE then Err EValue
  else if negb (at_ 0%nat =? 0xff) || negb (Z.land (at_ 1%nat) 0xf0 =? 0xf0) then Err EValue
  else
    let object_type := Z.land (Z.shiftr (at_ 2%nat) 6) 0x03 in
    match nth_error SAMPLE_FREQUENCIES (Z.to_nat (Z.land (Z.shiftr (at_ 2%nat) 2) 0x0f)) with
    | None => Err EValue
    | Some sample_rate =>
        match nth_error CHANNEL_COUNTS
                (Z.to_nat (Z.lor (Z.shiftl (Z.land (at_ 2%nat) 0x01) 2) (Z.land (Z.shiftr (at_ 3%nat) 6) 0x03))) with
        | None => Err EValue
        | Some channels =>
            let frame_size := Z.lor (Z.lor (Z.shiftl (Z.land (at_ 3%nat) 0x03) 11) (Z.shiftl (at_ 4%nat) 3))
                                    (Z.land (Z.shiftr (at_ 5%nat) 5) 0x07) in
            Ok (mkAi frame_size object_type sample_rate channels)
        end
    end.

(** ADTSAACGrainWrapper._frames, adts_aac_grain_wrapper.py 46-61: no exception of a read is caught. *)
Fixpoint adts_frames {St} (read : reader St) (st : St) (fuel : nat) : yielded (bytes * adts_info) :=
  match fuel with
  | O => ([], Some EFuel)
  | S fuel =>
      match read MIN_ADTS_HEADER_SIZE st with
      | (_, Err e) => ([], Some e)
      | (st, Ok head) =>
          if zlen head =? 0 then ([], None)
          else match parse_header head with
               | Err e => ([], Some e)
               | Ok info =>
                   match read (ai_size info - zlen head) st with
                   | (_, Err e) => ([], Some e)
                   | (st, Ok body) => let (fs, e) := adts_frames read st fuel in ((head ++ body, info) :: fs, e)
                   end
               end
      end
  end.

(** The metadata of a coded audio grain that the wrapper reads or sets. *)
Record adts_template := mkAt { at_channels : Z; at_sample_rate : Z; at_samples : option Z; at_rate_ : rate; at_duration : rate }.

(** Timestamp.normalise: the nearest multiple of the period. *)
Definition normalise (k : clock) (ns : Z) (r : rate) : Z := from_count k (to_count k ns (fst r) (snd r)) (fst r) (snd r).

(** The template after the first frame, adts_aac_grain_wrapper.py 76-85; a negative number of samples is not modelled. *)
Definition adts_update (t : adts_template) (i : adts_info) : res adts_template :=
  let samples := match at_samples t with Some n => n | None => 1024 end in
  if samples =? 0 then Err EZeroDiv
  else let r := fraction (ai_rate i) samples in
       Ok (mkAt (ai_channels i) (ai_rate i) (Some samples) r (snd r, fst r)).

(** The loop of grains, adts_aac_grain_wrapper.py 97-110: one frame for each time, counts [c], [c + 1], ... of the rate. *)
Fixpoint adts_emit (k : clock) (t : adts_template) (c : Z) (fs : list (bytes * adts_info)) : list (wrapped adts_template) :=
  match fs with
  | [] => []
  | (d, _) :: fs =>
      mkWg t (normalise k (from_count k c (fst (at_rate_ t)) (snd (at_rate_ t))) (at_sample_rate t, 1)) d :: adts_emit k t (c + 1) fs
  end.

(** ADTSAACGrainWrapper.grains, adts_aac_grain_wrapper.py 63-110. [first] gives the count of the first time of a range
    that starts at a time (mediatimestamp, as above). Origin and sync timestamp are the same. *)
Definition adts_grains {St} (k : clock) (first : Z -> rate -> Z) (read : reader St) (t : adts_template) (origin : Z) (st : St) (fuel : nat)
  : yielded (wrapped adts_template) :=
  match adts_frames read st fuel with
  | ([], e) => ([], e)
  | ((d, i) :: fs, e) =>
      match adts_update t i with
      | Err x => ([], Some x)
      | Ok t =>
          (adts_emit k t (first (normalise k origin (at_sample_rate t, 1)) (at_rate_ t)) ((d, i) :: fs), e)
      end
  end.
