(** The tone generator: /repo/mediagrains/patterngenerators/audio/tone.py 32-181 and audio/abc.py 29-46.

    The sine is a parameter: [wave d n] is the sample number n formatted for the depth d (tone.py 61-62 and 90-114). For
    the float and double formats it is the number whose bytes are those of the value. Native byte order is little-endian,
    [struct]'s @h, @i, @f and @d have 2, 4, 4 and 8 bytes. *)
From Verif Require Import Base CogEnums VideoLayout GsfPrim NpView PatternTime.

Inductive depth := D16 | D24 | D32 | DFloat | DDouble.
Inductive lay := LPlanes | LPairs | LInterleaved.

(** The arguments of the constructor, tone.py 33-43. *)
Record tone := mkTone { t_samples : Z; t_channels : Z; t_format : Z; t_sample_rate : Z; t_frequency : Z; t_wave : depth -> Z -> Z }.

(** The length of the waveform, tone.py 55-60. *)
Definition looplen (t : tone) : Z :=
  if t_frequency t =? 0 then 1
  else if t_sample_rate t mod t_frequency t =? 0 then t_sample_rate t / t_frequency t
  else t_sample_rate t.

(** tone.py 90-114 and 120-137. *)
Definition tone_depth (fmt : Z) : option depth :=
  if member [0x0; 0x1; 0x2] fmt then Some D16
  else if member [0x4; 0x5; 0x6] fmt then Some D24
  else if member [0x8; 0x9; 0xa] fmt then Some D32
  else if member [0x18; 0x19; 0x1a] fmt then Some DFloat
  else if member [0x2c; 0x2d; 0x2e] fmt then Some DDouble
  else None.
Definition tone_lay (fmt : Z) : option lay :=
  if member [0x0; 0x4; 0x8; 0x18; 0x2c] fmt then Some LPlanes
  else if member [0x1; 0x5; 0x9; 0x19; 0x2d] fmt then Some LPairs
  else if member [0x2; 0x6; 0xa; 0x1a; 0x2e] fmt then Some LInterleaved
  else None.

(** Tone.__init__, tone.py 33-83: Fraction(sample_rate, 0) raises, and so do formats not in the list. *)
Definition new_tone (t : tone) : res tone :=
  if t_samples t =? 0 then Err EZeroDiv
  else match tone_depth (t_format t) with Some _ => Ok t | None => Err EValue end.

(** [l * n]. *)
Definition repeat_list {A} (n : Z) (l : list A) : list A := concat (repeat l (Z.to_nat n)).

(** The samples of every channel in file order, tone.py 139-145; the modulo by the length of an empty list raises. *)
Definition tone_line (t : tone) (d : depth) (l : lay) (offs : Z) : res (list Z) :=
  let data := map (t_wave t d) (zrange (looplen t)) in
  let samples := zrange (t_samples t) in
  if (zlen data =? 0) && negb (zlen samples =? 0) then Err EZeroDiv
  else
    let line := map (fun i => nth (Z.to_nat ((offs + i) mod zlen data)) data 0) samples in
    Ok (match l with
        | LPlanes => repeat_list (t_channels t) line
        | LPairs => repeat_list (t_channels t / 2) (flat_map (fun x => repeat x 2) line)
        | LInterleaved => flat_map (fun x => repeat x (Z.to_nat (t_channels t))) line
        end).

(** [struct.pack] of one value: signed integers must fit; of many: as many values as letters. *)
Definition pack_int (n : nat) (v : Z) : res bytes :=
  if (- 2 ^ (8 * Z.of_nat n - 1) <=? v) && (v <? 2 ^ (8 * Z.of_nat n - 1)) then Ok (enc_uint n (v mod 2 ^ (8 * Z.of_nat n))) else Err EStruct.
Definition pack_bits (n : nat) (v : Z) : res bytes := Ok (enc_uint n v).
Fixpoint pack_all (p : Z -> res bytes) (l : list Z) : res bytes :=
  match l with
  | [] => Ok []
  | x :: rest => rbind (p x) (fun b => rbind (pack_all p rest) (fun bs => Ok (b ++ bs)))
  end.
Definition pack_counted (letters : Z) (p : Z -> res bytes) (l : list Z) : res bytes :=
  if zlen l =? Z.max 0 letters then pack_all p l else Err EStruct.

(** tone.py 147-156. *)
Definition tone_pack (t : tone) (d : depth) (line : list Z) : res bytes :=
  let letters := Z.max 0 (t_samples t) * Z.max 0 (t_channels t) in
  match d with
  | D16 => pack_counted letters (pack_int 2) line
  | D24 => pack_all (fun x => rbind (pack_int 4 x) (fun b => Ok (zfirst 3 b))) line
  | D32 => pack_counted letters (pack_int 4) line
  | DFloat => pack_counted letters (pack_bits 4) line
  | DDouble => pack_counted letters (pack_bits 8) line
  end.

(** The bytes for an offset in the waveform, without the cache. The format was checked by the constructor, so one of the
    branches of both chains is taken. *)
Definition fresh_samples (t : tone) (offs : Z) : res bytes :=
  match tone_depth (t_format t), tone_lay (t_format t) with
  | Some d, Some l => rbind (tone_line t d l offs) (tone_pack t d)
  | _, _ => Err EUnbound
  end.

(** self.data_samples: offsets already formatted. *)
Definition cache := list (Z * bytes).
Fixpoint cached (c : cache) (offs : Z) : option bytes :=
  match c with
  | [] => None
  | (o, b) :: rest => if o =? offs then Some b else cached rest offs
  end.

(** _get_samples, tone.py 85-158. *)
Definition get_samples (t : tone) (c : cache) (offs : Z) : cache * res bytes :=
  match cached c offs with
  | Some b => (c, Ok b)
  | None =>
      match fresh_samples t offs with
      | Ok b => ((offs, b) :: c, Ok b)
      | Err e => (c, Err e)
      end
  end.

(** The parts of the audio grain that depend on the key, tone.py 169-179; the rest are the generator's own attributes. *)
Record tone_grain := mkTg { tg_origin : Z; tg_rate : rate; tg_data : bytes }.

Definition tone_rate (t : tone) : rate := fraction (t_sample_rate t) (t_samples t).

(** get, tone.py 160-181. [ag.data = ...[:ag.expected_length]]. *)
Definition tone_get (k : clock) (t : tone) (c : cache) (key : tvalue) : cache * res (option tone_grain) :=
  let sample_count := count_at k key (t_sample_rate t, 1) in
  if negb (sample_count mod t_samples t =? 0) then (c, Ok None)
  else if looplen t =? 0 then (c, Err EZeroDiv)
  else
    let offs := sample_count mod looplen t in
    let (c', r) := get_samples t c offs in
    (c', rbind r (fun b =>
      Ok (Some (mkTg (from_count k sample_count (t_sample_rate t) 1) (tone_rate t)
                     (zfirst (size_for_audio_format (t_format t) (t_channels t) (t_samples t)) b))))).

(** A sequence of calls of get, as the iteration of a range makes them. *)
Fixpoint tone_gets (k : clock) (t : tone) (c : cache) (keys : list tvalue) : list (res (option tone_grain)) :=
  match keys with
  | [] => []
  | key :: rest => let (c', r) := tone_get k t c key in r :: tone_gets k t c' rest
  end.
