(** What reading a pipe and wrapping raw essence should do. *)
From Verif Require Import Base PatternTime PatternSpec Wrap.

(** Fragments are never empty. *)
Definition fragments_ok (s : source) : Prop := Forall (fun f => f <> []) s.

(** A buffered file with these contents. *)
Definition buffered (d : bytes) : source := match d with [] => [] | _ => [d] end.

(** Calls on an ordinary file: contents, position. *)
Definition file_op (content : bytes) (pos : Z) (o : pop) : Z * pout :=
  match o with
  | PRead n => let b := if n <? 0 then zskip pos content else zfirst n (zskip pos content) in (pos + zlen b, OutBytes b)
  | PSeek n w => let p := if w =? 0 then n else if w =? 1 then pos + n else zlen content + n in (p, OutPos p)
  | PTell => (pos, OutPos pos)
  end.

(** The calls that a pipe refuses: reading more than there is, and seeking anywhere but forward. *)
Definition refused (content : bytes) (pos : Z) (o : pop) : option err :=
  match o with
  | PRead n => if zlen (zskip pos content) <? n then Some EEof else None
  | PSeek n w => if (w =? 2) || (fst (file_op content pos o) <? pos) then Some EUnsupported else None
  | PTell => None
  end.

(** The same results as a file, up to the first call that is refused. *)
Fixpoint like_file (ops : list pop) (content : bytes) (pos : Z) : list pout :=
  match ops with
  | [] => []
  | o :: ops =>
      match refused content pos o with
      | Some e => [OutErr e]
      | None => let (pos, out) := file_op content pos o in out :: like_file ops content pos
      end
  end.

(** Sizes from -1, and the three origins of a seek. *)
Definition op_ok (o : pop) : Prop :=
  match o with PRead n => -1 <= n | PSeek _ w => w = 0 \/ w = 1 \/ w = 2 | PTell => True end.
Definition is_seek (o : pop) : Prop := match o with PSeek _ _ => True | _ => False end.

(** The calls after an exception was caught too. *)
Fixpoint pipe_all (ops : list pop) (p : pipe) : list pout :=
  match ops with
  | [] => []
  | o :: ops => let (p, out) := pipe_op o p in out :: pipe_all ops p
  end.

(** Times that advance by one period of the rate. *)
Definition origins_from {A} (k : clock) (r : rate) (c : Z) (gs : list (wrapped A)) : Prop :=
  map wg_origin gs = map (grid k r) (between c (c + zlen gs)).

(** An ADTS header: fields of given widths one after the other, most significant bit first (ISO/IEC 14496-3). *)
Record adts_fields := mkAf {
  af_id : Z; af_layer : Z; af_no_crc : Z; af_profile : Z; af_frequency : Z; af_private : Z; af_channels : Z;
  af_original : Z; af_home : Z; af_copyright : Z; af_copyright_start : Z; af_length : Z; af_fullness : Z; af_blocks : Z }.
Definition adts_syntax (f : adts_fields) : list (Z * Z) :=
  [(12, 4095); (1, af_id f); (2, af_layer f); (1, af_no_crc f); (2, af_profile f); (4, af_frequency f); (1, af_private f);
   (3, af_channels f); (1, af_original f); (1, af_home f); (1, af_copyright f); (1, af_copyright_start f); (13, af_length f);
   (11, af_fullness f); (2, af_blocks f)].
Definition pack_fields (l : list (Z * Z)) : Z := fold_left (fun n p => n * 2 ^ fst p + snd p) l 0.
Fixpoint big_endian (n : nat) (v : Z) : bytes :=
  match n with O => [] | S n => v / 256 ^ Z.of_nat n mod 256 :: big_endian n v end.
Definition adts_header (f : adts_fields) : bytes := big_endian 7 (pack_fields (adts_syntax f)).
Definition fields_ok (f : adts_fields) : Prop := Forall (fun p => 0 <= snd p < 2 ^ fst p) (adts_syntax f).

(** Sampling frequencies and numbers of channels (ISO/IEC 14496-3, tables 1.18 and 1.19). *)
Definition adts_frequency (n : Z) : option Z :=
  match n with
  | 0 => Some 96000 | 1 => Some 88200 | 2 => Some 64000 | 3 => Some 48000 | 4 => Some 44100 | 5 => Some 32000 | 6 => Some 24000
  | 7 => Some 22050 | 8 => Some 16000 | 9 => Some 12000 | 10 => Some 11025 | 11 => Some 8000 | 12 => Some 7350 | _ => None
  end.
Definition adts_channels (n : Z) : Z := if n =? 7 then 8 else n.
Definition fields_info (f : adts_fields) (hz : Z) : adts_info :=
  mkAi (af_length f) (af_profile f) hz (adts_channels (af_channels f)).

(** A frame: a header and as many bytes as it says. *)
Record adts_frame := mkFrame { fr_fields : adts_fields; fr_hz : Z; fr_body : bytes }.
Definition frame_ok (f : adts_frame) : Prop :=
  fields_ok (fr_fields f) /\ adts_frequency (af_frequency (fr_fields f)) = Some (fr_hz f) /\
  af_length (fr_fields f) = 7 + zlen (fr_body f).
Definition frame_bytes (f : adts_frame) : bytes := adts_header (fr_fields f) ++ fr_body f.
Definition frame_info (f : adts_frame) : adts_info := fields_info (fr_fields f) (fr_hz f).

(** The metadata of a grain with such a frame: 1024 samples unless the template says otherwise; one frame lasts as long as
    its samples, and its rate and its duration are fractions in lowest terms. *)
Definition adts_meta (samples : option Z) (f : adts_frame) (t : adts_template) : Prop :=
  let n := match samples with Some n => n | None => 1024 end in
  at_channels t = adts_channels (af_channels (fr_fields f)) /\ at_sample_rate t = fr_hz f /\ at_samples t = Some n /\
  fst (at_rate_ t) * n = fr_hz f * snd (at_rate_ t) /\ Z.gcd (fst (at_rate_ t)) (snd (at_rate_ t)) = 1 /\
  at_duration t = (snd (at_rate_ t), fst (at_rate_ t)).
