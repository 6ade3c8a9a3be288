(** UTF-8, as used by [str.encode("utf-8")] and [bytes.decode("utf-8")] (CPython built-ins, strict mode)
    at /repo/mediagrains/gsf.py lines 696 (read_string), 869 (flow data), 2143 and 2147 (tags),
    2241 (flow format), 2295 (time label tag), 2467 (add_flow).
    The arithmetic (div/mod) form of the bit layout is used. *)
From Verif Require Import Base.

(** Unicode scalar values: what a Python [str] without lone surrogates contains. *)
Definition scalar (c : Z) : Prop := 0 <= c < 55296 \/ 57344 <= c < 1114112.
Definition scalarb (c : Z) : bool := ((0 <=? c) && (c <? 55296)) || ((57344 <=? c) && (c <? 1114112)).
Definition str_ok (s : str) : Prop := Forall scalar s.

Definition utf8_enc1 (c : Z) : bytes :=
  if c <? 128 then [c]
  else if c <? 2048 then [192 + c / 64; 128 + c mod 64]
  else if c <? 65536 then [224 + c / 4096; 128 + (c / 64) mod 64; 128 + c mod 64]
  else [240 + c / 262144; 128 + (c / 4096) mod 64; 128 + (c / 64) mod 64; 128 + c mod 64].

Fixpoint utf8_enc (s : str) : bytes :=
  match s with
  | [] => []
  | c :: t => utf8_enc1 c ++ utf8_enc t
  end.

Definition is_cont (b : Z) : bool := (128 <=? b) && (b <? 192).

Definition ocons (c : Z) (o : option str) : option str :=
  match o with Some s => Some (c :: s) | None => None end.

(** Strict decoding: rejects stray continuation bytes, truncated sequences, overlong forms, surrogates and
    values above U+10FFFF. [None] stands for UnicodeDecodeError. *)
Fixpoint utf8_dec (l : bytes) : option str :=
  match l with
  | [] => Some []
  | b0 :: t =>
      if b0 <? 128 then ocons b0 (utf8_dec t)
      else if b0 <? 192 then None
      else if b0 <? 224 then
        match t with
        | b1 :: t1 =>
            let c := (b0 - 192) * 64 + (b1 - 128) in
            if is_cont b1 && (128 <=? c) then ocons c (utf8_dec t1) else None
        | [] => None
        end
      else if b0 <? 240 then
        match t with
        | b1 :: b2 :: t2 =>
            let c := (b0 - 224) * 4096 + (b1 - 128) * 64 + (b2 - 128) in
            if is_cont b1 && is_cont b2 && (2048 <=? c) && scalarb c then ocons c (utf8_dec t2) else None
        | _ => None
        end
      else if b0 <? 248 then
        match t with
        | b1 :: b2 :: b3 :: t3 =>
            let c := (b0 - 240) * 262144 + (b1 - 128) * 4096 + (b2 - 128) * 64 + (b3 - 128) in
            if is_cont b1 && is_cont b2 && is_cont b3 && (65536 <=? c) && (c <? 1114112)
            then ocons c (utf8_dec t3) else None
        | _ => None
        end
      else None
  end.
