(** GSF primitive fields: readers (/repo/mediagrains/gsf.py, SyncGSFBlock lines 613-799; AsyncGSFBlock lines
    396-441 has the same tag/uint/string readers) and writers (gsf.py lines 1525-1583). *)
From Verif Require Import Base Utf8.

(** An open input. [f_data] is the content; [f_base] is SyncGSFBlock.file_data_start (gsf.py 454-473), 0 for the
    outer file; [f_strict] is true for OpenAsyncBytesIO, whose [read] raises EOFError on a short read
    (asyncbinaryio.py 35-46), false for sync files, the file/BytesIO wrappers and the stream wrapper, which return
    fewer bytes; [f_fwd] is true for forward-only streams, whose backward seek raises
    (asyncbinaryio.py OpenAsyncStreamWrapper.seek). *)
Record file := mkFile { f_data : bytes; f_base : Z; f_strict : bool; f_fwd : bool }.

(** A reader: given the input and the stream position, a result and the new position, or an exception. *)
Definition rd (A : Type) := file -> Z -> res (A * Z).

Definition ret {A} (a : A) : rd A := fun _ p => Ok (a, p).
Definition fail {A} (e : err) : rd A := fun _ _ => Err e.
Definition bind {A B} (m : rd A) (k : A -> rd B) : rd B :=
  fun f p => match m f p with Ok (a, p') => k a f p' | Err e => Err e end.
Notation "x <- m ;; k" := (bind m (fun x => k)) (at level 61, m at next level, right associativity).
Notation "m ;;; k" := (bind m (fun _ => k)) (at level 61, right associativity).

(** _base_file_tell, gsf.py 480-482. *)
Definition base_tell : rd Z := fun f p => Ok (f_base f + p, p).

(** file_data.read(n) for n >= 0. *)
Definition fread (n : Z) : rd bytes := fun f p =>
  let d := zfirst n (zskip p (f_data f)) in
  if f_strict f && (zlen d <? n) then Err EEof else Ok (d, p + zlen d).

(** file_data.seek(n, SEEK_SET). *)
Definition fseek (n : Z) : rd unit := fun f p =>
  if f_fwd f && (n <? p) then Err EUnsupported else Ok (tt, n).

(** skip, gsf.py 794-799: seek(n, SEEK_CUR). *)
Definition fskip (n : Z) : rd unit := fun f p => Ok (tt, p + n).

(** sum of b_i << (8 i), gsf.py 634-635. *)
Fixpoint le_dec (l : bytes) : Z :=
  match l with
  | [] => 0
  | b :: t => b + 256 * le_dec t
  end.

(** read_uint, gsf.py 621-636. *)
Definition read_uint (n : Z) : rd Z :=
  d <- fread n ;;
  if zlen d =? n then ret (le_dec d) else fail EEof.

(** read_bool, gsf.py 638-644. *)
Definition read_bool : rd bool := n <- read_uint 1 ;; ret (negb (n =? 0)).

(** read_optional_bool, gsf.py 646-655. *)
Definition read_optional_bool : rd (option bool) :=
  n <- read_uint 1 ;;
  if n >? 1 then ret None else ret (Some (negb (n =? 0))).

(** The sign step shared by read_sint and read_optional_sint, gsf.py 665-667 and 680-682. *)
Definition to_signed (n r : Z) : Z :=
  if Z.shiftr r (8 * n - 1) =? 1 then r - Z.shiftl 1 (8 * n) else r.

(** read_sint, gsf.py 657-667. *)
Definition read_sint (n : Z) : rd Z := r <- read_uint n ;; ret (to_signed n r).

(** read_optional_sint, gsf.py 669-682. *)
Definition read_optional_sint (n null : Z) : rd (option Z) :=
  r <- read_uint n ;;
  if r =? null then ret None else ret (Some (to_signed n r)).

(** str.rstrip('\x00'). *)
Fixpoint rstrip0 (s : str) : str :=
  match s with
  | [] => []
  | c :: t => match rstrip0 t with
              | [] => if c =? 0 then [] else [c]
              | t' => c :: t'
              end
  end.

(** gsf.py 696-699. *)
Definition clean_string (s : str) : str :=
  match rstrip0 s with
  | [] => []
  | c :: t => if c =? 0 then [] else c :: t
  end.

(** read_string, gsf.py 684-704. *)
Definition read_string (n : Z) : rd str :=
  d <- fread n ;;
  if zlen d =? n then
    match utf8_dec d with
    | Some s => ret (clean_string s)
    | None => fail EDecode
    end
  else fail EEof.

(** read_varstring, gsf.py 706-715. *)
Definition read_varstring : rd str := n <- read_uint 2 ;; read_string n.

(** read_uuid, gsf.py 717-728. A UUID is its 16 bytes. *)
Definition read_uuid : rd bytes :=
  d <- fread 16 ;;
  if zlen d =? 16 then ret d else fail EEof.

(** A UTC date-time with second resolution. *)
Record datetime := mkDT { dt_year : Z; dt_month : Z; dt_day : Z; dt_hour : Z; dt_min : Z; dt_sec : Z }.

Definition leap (y : Z) : bool := (y mod 4 =? 0) && (negb (y mod 100 =? 0) || (y mod 400 =? 0)).
Definition days_in_month (y m : Z) : Z :=
  if m =? 2 then (if leap y then 29 else 28)
  else if (m =? 4) || (m =? 6) || (m =? 9) || (m =? 11) then 30 else 31.

(** The range check of the [datetime] constructor (CPython), which raises ValueError otherwise. *)
Definition dt_valid (d : datetime) : bool :=
  (1 <=? dt_year d) && (dt_year d <=? 9999) && (1 <=? dt_month d) && (dt_month d <=? 12) &&
  (1 <=? dt_day d) && (dt_day d <=? days_in_month (dt_year d) (dt_month d)) &&
  (0 <=? dt_hour d) && (dt_hour d <? 24) && (0 <=? dt_min d) && (dt_min d <? 60) &&
  (0 <=? dt_sec d) && (dt_sec d <? 60).

(** read_datetime, gsf.py 730-742. *)
Definition read_datetime : rd datetime :=
  y <- read_sint 2 ;;
  mo <- read_uint 1 ;;
  d <- read_uint 1 ;;
  h <- read_uint 1 ;;
  mi <- read_uint 1 ;;
  s <- read_uint 1 ;;
  let r := mkDT y mo d h mi s in
  if dt_valid r then ret r else fail EValue.

(** A mediatimestamp.Timestamp is modelled as its signed number of nanoseconds; [ts.sign], [ts.sec], [ts.ns]
    and the constructor Timestamp(sec, ns, sign) are the library's (not in /repo), assumed to be: *)
Definition GIGA : Z := 1000000000.
Definition ts_make (sec ns sign : Z) : Z := sign * (sec * GIGA + ns).
Definition ts_sign (t : Z) : Z := if t <? 0 then -1 else 1.
Definition ts_secs (t : Z) : Z := Z.abs t / GIGA.
Definition ts_nanos (t : Z) : Z := Z.abs t mod GIGA.

(** read_timestamp_v7, gsf.py 744-752. *)
Definition read_timestamp_v7 : rd Z :=
  secs <- read_uint 6 ;;
  nano <- read_uint 4 ;;
  ret (ts_make secs nano 1).

(** read_timestamp, gsf.py 754-766. *)
Definition read_timestamp : rd Z :=
  b <- read_bool ;;
  secs <- read_uint 6 ;;
  nano <- read_uint 4 ;;
  ret (ts_make secs nano (if b then 1 else -1)).

(** A fractions.Fraction is a pair (numerator, denominator) in lowest terms with positive denominator;
    Fraction(n, d) for d > 0: *)
Definition rat := (Z * Z)%type.
Definition mk_rat (n d : Z) : rat := (n / Z.gcd n d, d / Z.gcd n d).
Definition rat_ok (r : rat) : Prop := 0 < snd r /\ Z.gcd (fst r) (snd r) = 1.
Definition rat_zero : rat := (0, 1).

(** read_rational, gsf.py 768-781. *)
Definition read_rational : rd rat :=
  n <- read_uint 4 ;;
  d <- read_uint 4 ;;
  if (n =? 0) || (d =? 0) then ret rat_zero else ret (mk_rat n d).

(** read_varbytes, gsf.py 783-792 (no check for a short read). *)
Definition read_varbytes : rd bytes := n <- read_uint 4 ;; fread n.

(** [for i in range(0, n): ... append(m)]. *)
Fixpoint repeatm {A} (n : nat) (m : rd A) : rd (list A) :=
  match n with
  | O => ret []
  | S k => a <- m ;; l <- repeatm k m ;; ret (a :: l)
  end.

(** ------------------------------------------------------------------ writers *)

(** _encode_uint, gsf.py 1525-1530. *)
Fixpoint enc_uint (size : nat) (val : Z) : bytes :=
  match size with
  | O => []
  | S k => Z.land val 255 :: enc_uint k (Z.shiftr val 8)
  end.

(** _encode_sint, gsf.py 1533-1536. *)
Definition enc_sint (size : nat) (val : Z) : bytes :=
  enc_uint size (if val <? 0 then val + Z.shiftl 1 (8 * Z.of_nat size) else val).

(** _encode_bool, gsf.py 1539-1540. *)
Definition enc_bool (b : bool) : bytes := enc_uint 1 (if b then 1 else 0).

(** _encode_uuid, gsf.py 1543-1544. *)
Definition enc_uuid (u : bytes) : bytes := u.

(** _encode_ts_v7, gsf.py 1547-1549. *)
Definition enc_ts_v7 (t : Z) : bytes := enc_uint 6 (ts_secs t) ++ enc_uint 4 (ts_nanos t).

(** _encode_ts, gsf.py 1552-1555. *)
Definition enc_ts (t : Z) : bytes :=
  enc_bool (ts_sign t >=? 0) ++ enc_uint 6 (ts_secs t) ++ enc_uint 4 (ts_nanos t).

(** _encode_rational, gsf.py 1558-1561 (the argument is already a Fraction). *)
Definition enc_rational (r : rat) : bytes := enc_uint 4 (fst r) ++ enc_uint 4 (snd r).

(** The seven bytes of the created date, gsf.py 1680-1685 (OpenGSFEncoderBase._encode_head_block). The
    argument is the date-time after _ensure_utc_datetime (gsf.py 1564-1583; modelled in Utc.v), microseconds are never written. *)
Definition enc_datetime (d : datetime) : bytes :=
  enc_sint 2 (dt_year d) ++ enc_uint 1 (dt_month d) ++ enc_uint 1 (dt_day d) ++ enc_uint 1 (dt_hour d) ++
  enc_uint 1 (dt_min d) ++ enc_uint 1 (dt_sec d).

(** (s.encode("utf-8") + b"\x00" * n)[:n], gsf.py 2241 (n = 64) and 2295 (n = 16). *)
Definition enc_fixstring (n : nat) (s : str) : bytes := zfirst (Z.of_nat n) (utf8_enc s ++ zeros n).

(** encoded_key / encoded_value, gsf.py 2141-2147. *)
Definition tag_text (s : str) : bytes := zfirst 65535 (utf8_enc s).

(** The 2-byte length and text of a tag key or value, gsf.py 2157-2160. *)
Definition enc_varstring (s : str) : bytes := enc_uint 2 (zlen (tag_text s)) ++ tag_text s.
