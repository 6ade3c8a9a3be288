(** json.dumps and json.loads of the Python standard library with their defaults, as used by
    /repo/mediagrains/grains/EventGrain.py 24, 183-185, 189-192. Texts are lists of code points. Numbers with a fraction or an
    exponent, NaN and the infinities are not modelled ([loads] rejects them), nor is the limit of 4300 digits on integers. *)
From Verif Require Import Base PyValue.
From Coq Require Import String Decimal.
Local Open Scope list_scope.

(** The text of an integer. *)
Fixpoint digits (u : uint) : str :=
  match u with
  | Nil => [] | D0 u => 48 :: digits u | D1 u => 49 :: digits u | D2 u => 50 :: digits u | D3 u => 51 :: digits u
  | D4 u => 52 :: digits u | D5 u => 53 :: digits u | D6 u => 54 :: digits u | D7 u => 55 :: digits u
  | D8 u => 56 :: digits u | D9 u => 57 :: digits u
  end.
Definition int_text (z : Z) : str := match Z.to_int z with Pos u => digits u | Neg u => 45 :: digits u end.

(** json.encoder.py_encode_basestring_ascii. *)
Definition hex_digit (d : Z) : Z := if d <? 10 then 48 + d else 87 + d.
Definition u_escape (n : Z) : str :=
  [92; 117; hex_digit (n / 4096 mod 16); hex_digit (n / 256 mod 16); hex_digit (n / 16 mod 16); hex_digit (n mod 16)].
Definition char_text (c : Z) : str :=
  if c =? 92 then [92; 92] else if c =? 34 then [92; 34]
  else if c =? 10 then [92; 110] else if c =? 13 then [92; 114] else if c =? 9 then [92; 116]
  else if c =? 12 then [92; 102] else if c =? 8 then [92; 98]
  else if (32 <=? c) && (c <=? 126) then [c]
  else if c <? 65536 then u_escape c
  else let n := c - 65536 in
       u_escape (Z.lor 0xd800 (Z.land (Z.shiftr n 10) 0x3ff)) ++ u_escape (Z.lor 0xdc00 (Z.land n 0x3ff)).
Definition str_text (s : str) : str := 34 :: flat_map char_text s ++ [34].

(** [json.dumps]: TypeError for objects that are not serialisable; texts of UUIDs and timestamps are not modelled. *)
Fixpoint dumps (v : pv) : res str :=
  match v with
  | PNone => Ok (s2z "null"%string)
  | PBool true => Ok (s2z "true"%string)
  | PBool false => Ok (s2z "false"%string)
  | PInt z => Ok (int_text z)
  | PStr s => Ok (str_text s)
  | PList l =>
      rbind ((fix go (first : bool) l := match l with
                         | [] => Ok []
                         | x :: l => rbind (dumps x) (fun t => rbind (go false l) (fun r => Ok ((if first then [] else [44; 32]) ++ t ++ r)))
                         end) true l) (fun t => Ok (91 :: t ++ [93]))
  | PDict d =>
      rbind ((fix go (first : bool) d := match d with
                         | [] => Ok []
                         | (k, x) :: d => rbind (dumps x) (fun t => rbind (go false d) (fun r =>
                             Ok ((if first then [] else [44; 32]) ++ str_text k ++ [58; 32] ++ t ++ r)))
                         end) true d) (fun t => Ok (123 :: t ++ [125]))
  | _ => Err EType
  end.

(** json.decoder.scanstring after the opening quote; errors are JSONDecodeError, a ValueError. *)
Definition hex_val (c : Z) : option Z :=
  if (48 <=? c) && (c <=? 57) then Some (c - 48)
  else if (97 <=? c) && (c <=? 102) then Some (c - 87)
  else if (65 <=? c) && (c <=? 70) then Some (c - 55) else None.
Definition hex4 (s : str) : option (Z * str) :=
  match s with
  | a :: b :: c :: d :: s =>
      match hex_val a, hex_val b, hex_val c, hex_val d with
      | Some a, Some b, Some c, Some d => Some (a * 4096 + b * 256 + c * 16 + d, s)
      | _, _, _, _ => None
      end
  | _ => None
  end.
Definition unescape (c : Z) : option Z :=
  if c =? 34 then Some 34 else if c =? 92 then Some 92 else if c =? 47 then Some 47 else if c =? 98 then Some 8
  else if c =? 102 then Some 12 else if c =? 110 then Some 10 else if c =? 114 then Some 13 else if c =? 116 then Some 9 else None.
(** One character of a string: the end, a character, or an error. A high surrogate followed by a low one is one character. *)
Inductive lexed := LEnd (rest : str) | LChar (c : Z) (rest : str) | LBad.
Definition lex (s : str) : lexed :=
  match s with
  | [] => LBad
  | c :: s =>
      if c =? 34 then LEnd s
      else if c =? 92 then
        match s with
        | [] => LBad
        | e :: s =>
            if e =? 117 then
              match hex4 s with
              | None => LBad
              | Some (u, s) =>
                  if (0xd800 <=? u) && (u <=? 0xdbff) then
                    match s with
                    | 92 :: 117 :: s' =>
                        match hex4 s' with
                        | Some (u2, s'') =>
                            if (0xdc00 <=? u2) && (u2 <=? 0xdfff)
                            then LChar (65536 + Z.lor (Z.shiftl (u - 0xd800) 10) (u2 - 0xdc00)) s'' else LChar u s
                        | None => LBad
                        end
                    | _ => LChar u s
                    end
                  else LChar u s
              end
            else match unescape e with Some c => LChar c s | None => LBad end
        end
      else if c <? 32 then LBad
      else LChar c s
  end.
Fixpoint scan_str (fuel : nat) (s : str) : res (str * str) :=
  match fuel with
  | O => Err EFuel
  | S fuel =>
      match lex s with
      | LBad => Err EValue
      | LEnd s => Ok ([], s)
      | LChar c s => rbind (scan_str fuel s) (fun '(t, s) => Ok (c :: t, s))
      end
  end.

(** White space: [ \t\n\r]. *)
Fixpoint ws (s : str) : str :=
  match s with c :: t => if (c =? 32) || (c =? 9) || (c =? 10) || (c =? 13) then ws t else s | [] => [] end.
(** A run of digits. *)
Fixpoint scan_digits (s : str) : uint * str :=
  match s with
  | c :: t =>
      let '(u, r) := scan_digits t in
      if c =? 48 then (D0 u, r) else if c =? 49 then (D1 u, r) else if c =? 50 then (D2 u, r) else if c =? 51 then (D3 u, r)
      else if c =? 52 then (D4 u, r) else if c =? 53 then (D5 u, r) else if c =? 54 then (D6 u, r) else if c =? 55 then (D7 u, r)
      else if c =? 56 then (D8 u, r) else if c =? 57 then (D9 u, r) else (Nil, s)
  | [] => (Nil, [])
  end.
(** [-?(0, or a non-zero digit and more digits)] of json.scanner.NUMBER_RE, then no fraction or exponent. *)
Definition scan_nat (s : str) : res (uint * str) :=
  match s with
  | 48 :: t => Ok (D0 Nil, t)
  | _ => match scan_digits s with (Nil, _) => Err EValue | r => Ok r end
  end.
Definition scan_int (s : str) : res (Z * str) :=
  let '(neg, s) := match s with 45 :: t => (true, t) | _ => (false, s) end in
  rbind (scan_nat s) (fun '(u, t) =>
    match t with
    | c :: _ => if (c =? 46) || (c =? 101) || (c =? 69) then Err EValue else Ok (Z.of_int (if neg then Neg u else Pos u), t)
    | [] => Ok (Z.of_int (if neg then Neg u else Pos u), t)
    end).
(** A fixed word. *)
Fixpoint strip (w s : str) : option str :=
  match w, s with [], _ => Some s | x :: w, y :: s => if x =? y then strip w s else None | _, [] => None end.
Definition expect (w s : str) : res str := match strip w s with Some s => Ok s | None => Err EValue end.

(** json.scanner.scan_once with json.decoder.JSONArray and JSONObject; duplicate keys: the last value, in the first place. *)
Fixpoint scan_once (fuel : nat) (s : str) : res (pv * str) :=
  match fuel with
  | O => Err EFuel
  | S fuel =>
      let items := fix items (n : nat) (s : str) : res (list pv * str) :=
        match n with
        | O => Err EFuel
        | S n =>
            rbind (scan_once fuel s) (fun '(v, s) =>
            match ws s with
            | 44 :: s => rbind (items n (ws s)) (fun '(l, s) => Ok (v :: l, s))
            | 93 :: s => Ok ([v], s)
            | _ => Err EValue
            end)
        end in
      let pairs := fix pairs (n : nat) (s : str) : res (dict * str) :=
        match n with
        | O => Err EFuel
        | S n =>
            rbind (expect [34] s) (fun s =>
            rbind (scan_str fuel s) (fun '(k, s) =>
            rbind (expect [58] (ws s)) (fun s =>
            rbind (scan_once fuel (ws s)) (fun '(v, s) =>
            match ws s with
            | 44 :: s => rbind (pairs n (ws s)) (fun '(d, s) => Ok ((k, v) :: d, s))
            | 125 :: s => Ok ([(k, v)], s)
            | _ => Err EValue
            end))))
        end in
      match s with
      | [] => Err EValue
      | c :: t =>
          if c =? 34 then rbind (scan_str fuel t) (fun '(x, s) => Ok (PStr x, s))
          else if c =? 123 then
            match ws t with
            | 125 :: s => Ok (PDict [], s)
            | s => rbind (pairs fuel s) (fun '(d, s) => Ok (PDict (fold_left (fun e kv => dset (fst kv) (snd kv) e) d []), s))
            end
          else if c =? 91 then
            match ws t with
            | 93 :: s => Ok (PList [], s)
            | s => rbind (items fuel s) (fun '(l, s) => Ok (PList l, s))
            end
          else if c =? 110 then rbind (expect (s2z "null"%string) s) (fun s => Ok (PNone, s))
          else if c =? 116 then rbind (expect (s2z "true"%string) s) (fun s => Ok (PBool true, s))
          else if c =? 102 then rbind (expect (s2z "false"%string) s) (fun s => Ok (PBool false, s))
          else rbind (scan_int s) (fun '(z, s) => Ok (PInt z, s))
      end
  end.
(** [json.loads]: white space around one value and nothing else. *)
Definition loads (s : str) : res pv :=
  rbind (scan_once (S (List.length s)) (ws s)) (fun '(v, t) => match ws t with [] => Ok v | _ => Err EValue end).

(** The values that survive: no objects, keys once, strings without surrogates. *)
Definition char_ok (c : Z) : Prop := 0 <= c < 0xd800 \/ 0xe000 <= c < 0x110000.
Inductive json_ok : pv -> Prop :=
| jok_none : json_ok PNone | jok_bool : forall b, json_ok (PBool b) | jok_int : forall z, json_ok (PInt z)
| jok_str : forall s, Forall char_ok s -> json_ok (PStr s)
| jok_list : forall l, Forall json_ok l -> json_ok (PList l)
| jok_dict : forall d, NoDup (map fst d) -> Forall (fun kv => Forall char_ok (fst kv) /\ json_ok (snd kv)) d -> json_ok (PDict d).
