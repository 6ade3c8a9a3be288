(** The numpy view of audio grains: /repo/mediagrains/numpy/numpy_grains/AudioGrain.py 29-217.

    A payload is its bytes, in the little-endian order of the machine. An array of samples is a strided view of a buffer in bytes:
    the buffer is the payload itself or a copy. numpy's as_strided does not check that the view is inside its buffer. Negative
    numbers of samples are not modelled. Exceptions: ValueError is [EValue], NotImplementedError
    [EUnsupported]. *)
From Verif Require Import Base GsfPrim CogEnums VideoLayout.

(** _dtype_from_cogaudioformat, 29-45: the bytes of an item. *)
Definition audio_itemsize (fmt : Z) : res Z :=
  if AUDIO_IS_INT fmt then
    if AUDIO_DEPTH fmt =? 4 then Ok 1
    else if AUDIO_SAMPLEBYTES fmt =? 2 then Ok 2
    else if AUDIO_SAMPLEBYTES fmt =? 4 then Ok 4
    else if AUDIO_SAMPLEBYTES fmt =? 8 then Ok 8
    else Err EUnsupported
  else if AUDIO_IS_FLOAT fmt then Ok 4
  else if AUDIO_IS_DOUBLE fmt then Ok 8
  else Err EUnsupported.

(** A view: where it starts, the distance of its items, how many there are, and the bytes of an item. *)
Record aview := mkAv { av_start : Z; av_stride : Z; av_count : Z; av_item : Z }.
(** The address of an item; [None] if it is not in the buffer. *)
Definition av_addr (v : aview) (i : Z) : Z := av_start v + i * av_stride v.
Definition av_inside (buf : bytes) (v : aview) (i : Z) : bool :=
  (0 <=? i) && (i <? av_count v) && (0 <=? av_addr v i) && (av_addr v i + av_item v <=? zlen buf).
Definition av_read (buf : bytes) (v : aview) (i : Z) : option bytes :=
  if av_inside buf v i then Some (zfirst (av_item v) (zskip (av_addr v i) buf)) else None.
Definition av_write (buf : bytes) (v : aview) (i : Z) (b : bytes) : option bytes :=
  if av_inside buf v i && (zlen b =? av_item v) then Some (zfirst (av_addr v i) buf ++ b ++ zskip (av_addr v i + av_item v) buf) else None.

(** 61-65: samples of three bytes, each with a zero below. *)
Fixpoint widen (d : bytes) : bytes :=
  match d with b0 :: b1 :: b2 :: d => 0 :: b0 :: b1 :: b2 :: widen d | _ => [] end.
(** [data <<= 8], 66-70, on numbers of four bytes. *)
Fixpoint shift_up (d : bytes) : bytes :=
  match d with b0 :: b1 :: b2 :: b3 :: d => enc_uint 4 (Z.shiftl (le_dec [b0; b1; b2; b3]) 8 mod 2 ^ 32) ++ shift_up d | _ => [] end.

(** [data[a:b]] for an array of [n] items, 0 <= a: where it starts and how many items it has. *)
Definition np_slice (n a b : Z) : Z * Z := let s := Z.min a n in (s, Z.max 0 (Z.min b n - s)).
(** The loops, 76-105, on an array of [n] items of [item] bytes. *)
Definition channel_view (fmt samples channels n item ch : Z) : aview :=
  if AUDIO_IS_PLANES fmt then
    let (s, c) := np_slice n (ch * samples) ((ch + 1) * samples) in mkAv (s * item) item c item
  else if AUDIO_IS_INTERLEAVED fmt then
    let (s, _) := np_slice n ch (ch + samples) in mkAv (s * item) (item * channels) samples item
  else
    let (s, _) := np_slice n (2 * (ch / 2) * samples + ch mod 2) (2 * (ch / 2 + 1) * samples) in mkAv (s * item) (item * 2) samples item.
Definition channel_views (fmt samples channels n item : Z) : list aview :=
  if AUDIO_IS_PLANES fmt || AUDIO_IS_INTERLEAVED fmt || AUDIO_IS_PAIRS fmt
  then map (fun ch => channel_view fmt samples channels n item (Z.of_nat ch)) (seq 0 (Z.to_nat channels))
  else [].

(** A numpy audio grain: its payload, whether that can be written ([na_rw]), and the arrays of its channels, on the payload
    ([na_copy] is [None]) or on a copy. *)
Record naudio := mkNa { na_rw : bool; na_fmt : Z; na_samples : Z; na_channels : Z; na_data : bytes; na_copy : option bytes; na_views : list aview }.
(** The buffer the arrays are on. *)
Definition na_buffer (g : naudio) : bytes := match na_copy g with Some c => c | None => na_data g end.

(** AudioGrain.__init__ and the setter of [data], 139-150, 171-182, with _channel_arrays_for_data_and_type, 48-107. [writable]: the
    payload is a bytearray or an array, not bytes. np.frombuffer wants a whole number of items, and so do reshape and view. *)
Definition na_new (writable : bool) (fmt samples channels : Z) (d : bytes) : res naudio :=
  rbind (audio_itemsize fmt) (fun item =>
  if negb (zlen d mod item =? 0) then Err EValue
  else if AUDIO_IS_INT fmt && (AUDIO_DEPTH fmt =? 4) then
    if AUDIO_SAMPLEBYTES fmt =? 3 then
      if zlen d mod 3 =? 0 then Ok (mkNa writable fmt samples channels d (Some (widen d)) (channel_views fmt samples channels (zlen d / 3) 4)) else Err EValue
    else if negb (zlen d mod 4 =? 0) then Err EValue
    else if negb writable then Err EValue
    else Ok (mkNa writable fmt samples channels (shift_up d) None (channel_views fmt samples channels (zlen d / 4) 4))
  else Ok (mkNa writable fmt samples channels d None (channel_views fmt samples channels (zlen d / AUDIO_SAMPLEBYTES fmt) (AUDIO_SAMPLEBYTES fmt)))).

(** [grain.channel_data[ch][i]] and assignment to it: numpy raises ValueError for arrays on bytes. *)
Definition na_get (g : naudio) (ch i : Z) : option bytes :=
  if ch <? 0 then None else match nth_error (na_views g) (Z.to_nat ch) with Some v => av_read (na_buffer g) v i | None => None end.
Definition na_put (g : naudio) (ch i : Z) (b : bytes) : option naudio :=
  if (ch <? 0) || negb (na_rw g || match na_copy g with Some _ => true | None => false end) then None else
  match nth_error (na_views g) (Z.to_nat ch) with
  | Some v =>
      match av_write (na_buffer g) v i b with
      | Some buf => Some (match na_copy g with
                          | Some _ => mkNa (na_rw g) (na_fmt g) (na_samples g) (na_channels g) (na_data g) (Some buf) (na_views g)
                          | None => mkNa (na_rw g) (na_fmt g) (na_samples g) (na_channels g) buf None (na_views g) end)
      | None => None
      end
  | None => None
  end.
(** One assignment after the other. *)
Fixpoint na_puts (g : naudio) (ws : list (Z * Z * bytes)) : option naudio :=
  match ws with
  | [] => Some g
  | (ch, i, b) :: ws => match na_put g ch i b with Some g => na_puts g ws | None => None end
  end.
(** __copy__, 192-193: np.frombuffer of an array is the same memory, so the original sees what happens to the payload of the copy.
    The original after it, and the copy. *)
Definition na_copied (g : naudio) : res (naudio * naudio) :=
  rbind (na_new (na_rw g) (na_fmt g) (na_samples g) (na_channels g) (na_data g)) (fun g' =>
  Ok (mkNa (na_rw g) (na_fmt g) (na_samples g) (na_channels g) (na_data g') (na_copy g) (na_views g), g')).
(** __deepcopy__, 195-197: on an array of its own, which can be written. *)
Definition na_deepcopied (g : naudio) : res naudio := na_new true (na_fmt g) (na_samples g) (na_channels g) (na_data g).
