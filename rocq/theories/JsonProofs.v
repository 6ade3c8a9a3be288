(** What [json.dumps] writes, [json.loads] reads back. *)
From Coq Require Import Lia ZifyBool ZifyNat Decimal DecimalFacts DecimalZ DecimalN DecimalPos.
From Verif Require Import Base BaseProofs PyValue PyValueProofs Json.
Local Open Scope list_scope.
Ltac Zify.zify_post_hook ::= Z.div_mod_to_equations.

Lemma lor_shift a b n : 0 <= n -> 0 <= b < 2 ^ n -> Z.lor (Z.shiftl a n) b = a * 2 ^ n + b.
Proof.
  intros N B. rewrite <- Z.shiftl_mul_pow2 by exact N. symmetry. rewrite <- Z.lxor_lor; [apply Z.add_nocarry_lxor|];
  apply Z.bits_inj'; intros k K; rewrite Z.land_spec, Z.bits_0;
  (destruct (Z.lt_ge_cases k n); [rewrite Z.shiftl_spec_low by lia; reflexivity|]);
  (destruct (Z.eq_dec b 0) as [->|NB]; [rewrite Z.bits_0; apply andb_false_r|]);
  (rewrite (Z.bits_above_log2 b k); [apply andb_false_r|lia|]); apply Z.log2_lt_pow2; try lia; apply Z.lt_le_trans with (2 ^ n); try lia; apply Z.pow_le_mono_r; lia.
Qed.
Lemma land_1023 a : Z.land a 0x3ff = a mod 1024.
Proof. change 0x3ff with (Z.ones 10). rewrite Z.land_ones by lia. reflexivity. Qed.

(** Hexadecimal. *)
Lemma hex_val_digit d : 0 <= d < 16 -> hex_val (hex_digit d) = Some d.
Proof.
  intros H. unfold hex_val, hex_digit. destruct (d <? 10) eqn:E.
  - replace ((48 <=? 48 + d) && (48 + d <=? 57)) with true by lia. f_equal; lia.
  - replace ((48 <=? 87 + d) && (87 + d <=? 57)) with false by lia.
    replace ((97 <=? 87 + d) && (87 + d <=? 102)) with true by lia. f_equal; lia.
Qed.
Lemma hex4_escape n rest : 0 <= n < 65536 ->
  hex4 (hex_digit (n / 4096 mod 16) :: hex_digit (n / 256 mod 16) :: hex_digit (n / 16 mod 16) :: hex_digit (n mod 16) :: rest) = Some (n, rest).
Proof.
  intros H. unfold hex4. rewrite !hex_val_digit by (apply Z.mod_pos_bound; lia).
  f_equal; f_equal. lia.
Qed.
Lemma u_escape_app n rest : u_escape n ++ rest =
  92 :: 117 :: hex_digit (n / 4096 mod 16) :: hex_digit (n / 256 mod 16) :: hex_digit (n / 16 mod 16) :: hex_digit (n mod 16) :: rest.
Proof. reflexivity. Qed.

(** Characters. *)
Lemma lex_char c rest : char_ok c -> lex (char_text c ++ rest) = LChar c rest.
Proof.
  intros K. unfold char_text.
  destruct (c =? 92) eqn:E1; [apply Z.eqb_eq in E1; subst; reflexivity|].
  destruct (c =? 34) eqn:E2; [apply Z.eqb_eq in E2; subst; reflexivity|].
  destruct (c =? 10) eqn:E3; [apply Z.eqb_eq in E3; subst; reflexivity|].
  destruct (c =? 13) eqn:E4; [apply Z.eqb_eq in E4; subst; reflexivity|].
  destruct (c =? 9) eqn:E5; [apply Z.eqb_eq in E5; subst; reflexivity|].
  destruct (c =? 12) eqn:E6; [apply Z.eqb_eq in E6; subst; reflexivity|].
  destruct (c =? 8) eqn:E7; [apply Z.eqb_eq in E7; subst; reflexivity|].
  destruct ((32 <=? c) && (c <=? 126)) eqn:E8.
  - cbn [List.app lex]. rewrite E2, E1. replace (c <? 32) with false by lia. reflexivity.
  - unfold char_ok in K. destruct (c <? 65536) eqn:E9.
    + rewrite u_escape_app. cbn [lex]. change (92 =? 34) with false. change (92 =? 92) with true. change (117 =? 117) with true. cbv iota.
      rewrite hex4_escape by lia. replace ((55296 <=? c) && (c <=? 56319)) with false by lia. reflexivity.
    + cbv zeta. set (n := c - 65536). assert (N : 0 <= n < 1048576) by lia.
      rewrite !land_1023. rewrite Z.shiftr_div_pow2 by lia. change (2 ^ 10) with 1024.
      change 0xd800 with (Z.shiftl 54 10). change 0xdc00 with (Z.shiftl 55 10).
      rewrite !lor_shift by (change (2 ^ 10) with 1024; try apply Z.mod_pos_bound; lia).
      change (54 * 2 ^ 10) with 0xd800. change (55 * 2 ^ 10) with 0xdc00.
      set (h := 55296 + n / 1024 mod 1024). set (l := 56320 + n mod 1024).
      assert (Hh : 55296 <= h <= 56319) by (pose proof (Z.mod_pos_bound (n / 1024) 1024); lia).
      assert (Hl : 56320 <= l <= 57343) by (pose proof (Z.mod_pos_bound n 1024); lia).
      assert (Hv : (h - 55296) * 1024 + (l - 56320) = n).
      { assert (D : n / 1024 mod 1024 = n / 1024) by (apply Z.mod_small; lia). lia. }
      clearbody h l.
      rewrite <- app_assoc, !u_escape_app. cbn [lex]. change (92 =? 34) with false. change (92 =? 92) with true. change (117 =? 117) with true. cbv iota.
      rewrite hex4_escape by lia. replace ((55296 <=? h) && (h <=? 56319)) with true by lia.
      rewrite hex4_escape by lia. change (Z.shiftl 55 10) with 56320. replace ((56320 <=? l) && (l <=? 57343)) with true by lia.
      change (Z.shiftl 54 10) with 55296. rewrite lor_shift by (change (2 ^ 10) with 1024; lia). change (2 ^ 10) with 1024. rewrite Hv. f_equal. lia.
Qed.
Lemma char_text_len c : (1 <= List.length (char_text c))%nat.
Proof. unfold char_text. repeat (destruct (_ : bool); [cbn [List.length u_escape]; lia|]). cbn [List.app u_escape List.length]. lia. Qed.
Lemma scan_str_text s : Forall char_ok s -> forall fuel rest, (List.length s < fuel)%nat -> scan_str fuel (flat_map char_text s ++ 34 :: rest) = Ok (s, rest).
Proof.
  induction 1 as [|c s K F IH]; intros fuel rest L; (destruct fuel as [|fuel]; [cbn [List.length] in L; lia|]); cbn [flat_map].
  - reflexivity.
  - rewrite <- app_assoc. cbn [scan_str]. rewrite lex_char by exact K. rewrite IH by (cbn [List.length] in L; lia). reflexivity.
Qed.
Lemma flat_len s : (List.length s <= List.length (flat_map char_text s))%nat.
Proof. induction s as [|c s IH]; [reflexivity|]. cbn [flat_map List.length]. rewrite app_length. pose proof (char_text_len c). lia. Qed.

(** Numbers. *)
Definition stop (rest : str) : Prop := match rest with [] => True | c :: _ => c = 44 \/ c = 93 \/ c = 125 end.
Lemma scan_digits_text u rest : stop rest -> scan_digits (digits u ++ rest) = (u, rest).
Proof.
  intros S. induction u as [|u IH|u IH|u IH|u IH|u IH|u IH|u IH|u IH|u IH|u IH]; cbn [digits List.app];
    [|cbn [scan_digits]; rewrite IH; reflexivity..].
  destruct rest as [|c rest]; [reflexivity|]. cbn [scan_digits]. destruct (scan_digits rest).
  destruct S as [->|[->| ->]]; reflexivity.
Qed.
Definition plain (u : uint) : Prop := match u with Nil => False | D0 u => u = Nil | _ => True end.
Lemma plain_norm u : u <> Nil -> unorm u = u -> plain u.
Proof.
  destruct u as [|u|u|u|u|u|u|u|u|u|u]; intros N E; cbn [plain]; try exact I; [congruence|].
  destruct u as [|u|u|u|u|u|u|u|u|u|u]; try reflexivity; exfalso; unfold unorm in E; cbn [nzhead] in E; try discriminate E.
  pose proof (nzhead_nonzero u) as Z0. destruct (nzhead u) eqn:H; try discriminate E. exact (Z0 _ eq_refl).
Qed.
Lemma to_uint_plain p : plain (Pos.to_uint p).
Proof.
  apply plain_norm; [apply DecimalPos.Unsigned.to_uint_nonnil|].
  change (Pos.to_uint p) with (N.to_uint (N.pos p)). rewrite <- DecimalN.Unsigned.to_of, DecimalN.Unsigned.of_to. reflexivity.
Qed.
Lemma scan_nat_text u rest : plain u -> stop rest -> scan_nat (digits u ++ rest) = Ok (u, rest).
Proof.
  intros P S. destruct u as [|u|u|u|u|u|u|u|u|u|u]; cbn [plain] in P; try contradiction.
  - subst u. reflexivity.
  - cbn [digits List.app scan_nat]. change (49 :: digits u ++ rest) with (digits (D1 u) ++ rest). rewrite scan_digits_text by exact S. reflexivity.
  - cbn [digits List.app scan_nat]. change (50 :: digits u ++ rest) with (digits (D2 u) ++ rest). rewrite scan_digits_text by exact S. reflexivity.
  - cbn [digits List.app scan_nat]. change (51 :: digits u ++ rest) with (digits (D3 u) ++ rest). rewrite scan_digits_text by exact S. reflexivity.
  - cbn [digits List.app scan_nat]. change (52 :: digits u ++ rest) with (digits (D4 u) ++ rest). rewrite scan_digits_text by exact S. reflexivity.
  - cbn [digits List.app scan_nat]. change (53 :: digits u ++ rest) with (digits (D5 u) ++ rest). rewrite scan_digits_text by exact S. reflexivity.
  - cbn [digits List.app scan_nat]. change (54 :: digits u ++ rest) with (digits (D6 u) ++ rest). rewrite scan_digits_text by exact S. reflexivity.
  - cbn [digits List.app scan_nat]. change (55 :: digits u ++ rest) with (digits (D7 u) ++ rest). rewrite scan_digits_text by exact S. reflexivity.
  - cbn [digits List.app scan_nat]. change (56 :: digits u ++ rest) with (digits (D8 u) ++ rest). rewrite scan_digits_text by exact S. reflexivity.
  - cbn [digits List.app scan_nat]. change (57 :: digits u ++ rest) with (digits (D9 u) ++ rest). rewrite scan_digits_text by exact S. reflexivity.
Qed.
Lemma digits_head u : plain u -> exists c t, digits u = c :: t /\ 48 <= c <= 57.
Proof. destruct u; cbn [plain digits]; intros P; try contradiction; eexists _, _; (split; [reflexivity|lia]). Qed.
Lemma after_number {A} rest (x y : A) : stop rest -> match rest with c :: _ => if (c =? 46) || (c =? 101) || (c =? 69) then x else y | [] => y end = y.
Proof. destruct rest as [|c rest]; [reflexivity|]. intros [->|[->| ->]]; reflexivity. Qed.
Lemma scan_int_text z rest : stop rest -> scan_int (int_text z ++ rest) = Ok (z, rest).
Proof.
  intros S. unfold int_text, scan_int. destruct z as [|p|p]; cbn [Z.to_int].
  - cbn [digits List.app]. cbn [scan_nat rbind]. apply after_number, S.
  - destruct (digits_head _ (to_uint_plain p)) as (c & t & E & B).
    replace (match digits (Pos.to_uint p) ++ rest with 45 :: t0 => (true, t0) | _ => (false, digits (Pos.to_uint p) ++ rest) end) with (false, digits (Pos.to_uint p) ++ rest).
    2:{ rewrite E. cbn [List.app]. destruct c as [|q|q]; try lia. destruct q as [q|q|]; try reflexivity; do 5 (destruct q as [q|q|]; try reflexivity; try lia). }
    cbv iota beta. rewrite scan_nat_text by (apply to_uint_plain || exact S). cbn [rbind].
    change (Pos (Pos.to_uint p)) with (Z.to_int (Z.pos p)). rewrite DecimalZ.of_to. apply after_number, S.
  - cbn [List.app]. cbv iota beta. rewrite scan_nat_text by (apply to_uint_plain || exact S). cbn [rbind].
    change (Neg (Pos.to_uint p)) with (Z.to_int (Z.neg p)). rewrite DecimalZ.of_to. apply after_number, S.
Qed.

(** Containers. *)
Definition comma (first : bool) : str := if first then [] else [44; 32].
Definition list_text := fix go (first : bool) (l : list pv) : res str := match l with
  | [] => Ok []
  | x :: l => rbind (dumps x) (fun t => rbind (go false l) (fun r => Ok (comma first ++ t ++ r)))
  end.
Definition dict_text := fix go (first : bool) (d : dict) : res str := match d with
  | [] => Ok []
  | (k, x) :: d => rbind (dumps x) (fun t => rbind (go false d) (fun r => Ok (comma first ++ str_text k ++ [58; 32] ++ t ++ r)))
  end.
Lemma dumps_list l : dumps (PList l) = rbind (list_text true l) (fun t => Ok (91 :: t ++ [93])).
Proof. reflexivity. Qed.
Lemma dumps_dict d : dumps (PDict d) = rbind (dict_text true d) (fun t => Ok (123 :: t ++ [125])).
Proof. reflexivity. Qed.
Definition scan_items (fuel : nat) := fix items (n : nat) (s : str) : res (list pv * str) :=
  match n with
  | O => Err EFuel
  | S n =>
      rbind (scan_once fuel s) (fun '(v, s) =>
      match ws s with
      | 44 :: s => rbind (items n (ws s)) (fun '(l, s) => Ok (v :: l, s))
      | 93 :: s => Ok ([v], s)
      | _ => Err EValue
      end)
  end.
Definition scan_pairs (fuel : nat) := fix pairs (n : nat) (s : str) : res (dict * str) :=
  match n with
  | O => Err EFuel
  | S n =>
      rbind (expect [34] s) (fun s =>
      rbind (scan_str fuel s) (fun '(k, s) =>
      rbind (expect [58] (ws s)) (fun s =>
      rbind (scan_once fuel (ws s)) (fun '(v, s) =>
      match ws s with
      | 44 :: s => rbind (pairs n (ws s)) (fun '(d, s) => Ok ((k, v) :: d, s))
      | 125 :: s => Ok ([(k, v)], s)
      | _ => Err EValue
      end))))
  end.
Lemma scan_once_list fuel t : scan_once (S fuel) (91 :: t) =
  match ws t with 93 :: s => Ok (PList [], s) | s => rbind (scan_items fuel fuel s) (fun '(l, s) => Ok (PList l, s)) end.
Proof. reflexivity. Qed.
Lemma scan_once_dict fuel t : scan_once (S fuel) (123 :: t) =
  match ws t with
  | 125 :: s => Ok (PDict [], s)
  | s => rbind (scan_pairs fuel fuel s) (fun '(d, s) => Ok (PDict (fold_left (fun e kv => dset (fst kv) (snd kv) e) d []), s))
  end.
Proof. reflexivity. Qed.

(** The first character of a value. *)
Definition starts (t : str) : Prop := exists c r, t = c :: r /\ (c = 34 \/ c = 123 \/ c = 91 \/ c = 110 \/ c = 116 \/ c = 102 \/ c = 45 \/ 48 <= c <= 57).
Lemma dumps_starts v t : dumps v = Ok t -> starts t.
Proof.
  assert (B : forall (c : Z) (m : res str) (k : str -> str) t, rbind m (fun x => Ok (c :: k x)) = Ok t -> exists r, t = c :: r).
  { intros c m k t0 H. destruct m as [x|e]; cbn [rbind] in H; [|discriminate]. inversion H. eexists. reflexivity. }
  destruct v as [|[]|z|n d|s|u|u|x|x|l|d]; intros H; try discriminate H;
    try (rewrite ?dumps_list, ?dumps_dict in H; apply B in H as [r ->]; eexists _, _; (split; [reflexivity|]); tauto);
    try (cbn [dumps] in H; inversion H; subst; eexists _, _; (split; [reflexivity|]); tauto).
  - cbn [dumps] in H. inversion H; subst. unfold int_text. destruct z as [|p|p]; cbn [Z.to_int].
    + eexists _, _. split; [reflexivity|]. lia.
    + destruct (digits_head _ (to_uint_plain p)) as (c & r & E & D). exists c, r. split; [exact E|]. tauto.
    + eexists _, _. split; [reflexivity|]. tauto.
Qed.
Lemma ws_starts t rest : starts t -> ws (t ++ rest) = t ++ rest.
Proof.
  intros (c & r & -> & H). cbn [List.app ws]. replace ((c =? 32) || (c =? 9) || (c =? 10) || (c =? 13)) with false by lia. reflexivity.
Qed.
Lemma ws_space t : ws (32 :: t) = ws t.
Proof. reflexivity. Qed.
Lemma ws_comma t : ws (44 :: t) = 44 :: t.
Proof. reflexivity. Qed.
Lemma ws_colon t : ws (58 :: t) = 58 :: t.
Proof. reflexivity. Qed.
Lemma rbind_ok {A B} (m : res A) (k : A -> res B) y : rbind m k = Ok y -> exists x, m = Ok x /\ k x = Ok y.
Proof. destruct m as [x|e]; cbn [rbind]; intros H; [exists x; auto|discriminate]. Qed.
Lemma Ok_eq {A} (x y : A) : Ok x = Ok y -> x = y.
Proof. intros H. inversion H. reflexivity. Qed.

Definition reads (v : pv) (t : str) : Prop :=
  forall fuel rest, stop rest -> (List.length t < fuel)%nat -> scan_once fuel (t ++ rest) = Ok (v, rest).
Lemma items_text l : l <> [] -> Forall (fun v => forall t, dumps v = Ok t -> reads v t) l -> forall t, list_text true l = Ok t ->
  forall fuel n rest, stop rest -> (List.length t < fuel)%nat -> (List.length l <= n)%nat -> scan_items fuel n (t ++ 93 :: rest) = Ok (l, rest).
Proof.
  intros N F. induction F as [|v l H F IH]; [congruence|]. clear N.
  intros t E fuel n rest S Lf Ln. cbn [list_text] in E. apply rbind_ok in E as (tv & Ev & E). apply rbind_ok in E as (tr & Er & E).
  apply Ok_eq in E. cbn [comma List.app] in E. subst t. rewrite app_length in Lf.
  destruct n as [|n]; [cbn [List.length] in Ln; lia|]. cbn [scan_items]. rewrite <- app_assoc.
  destruct l as [|w l].
  - cbn [list_text] in Er. apply Ok_eq in Er. subst tr. cbn [List.app].
    rewrite (H _ Ev) by (cbn [stop]; auto || lia). cbn [rbind ws]. reflexivity.
  - cbn [list_text] in Er, IH. apply rbind_ok in Er as (tw & Ew & Er). apply rbind_ok in Er as (tq & Eq & Er).
    apply Ok_eq in Er. cbn [comma] in Er. subst tr. cbn [List.app List.length] in Lf |- *.
    rewrite (H _ Ev) by (cbn [stop]; auto || lia). cbn [rbind]. rewrite ws_comma, ws_space.
    rewrite <- app_assoc, ws_starts by (eapply dumps_starts; eassumption).
    rewrite app_assoc. rewrite (IH ltac:(discriminate) (tw ++ tq)); [reflexivity| |exact S| |cbn [List.length] in Ln |- *; lia].
    + rewrite Ew, Eq. reflexivity.
    + rewrite app_length in *. lia.
Qed.
Lemma str_text_app k rest : str_text k ++ rest = 34 :: flat_map char_text k ++ 34 :: rest.
Proof. unfold str_text. cbn [List.app]. rewrite <- app_assoc. reflexivity. Qed.
Lemma str_text_len k : List.length (str_text k) = S (S (List.length (flat_map char_text k))).
Proof. unfold str_text. cbn [List.length]. rewrite app_length. cbn [List.length]. lia. Qed.
Lemma pairs_text d : d <> [] -> Forall (fun kv => Forall char_ok (fst kv) /\ forall t, dumps (snd kv) = Ok t -> reads (snd kv) t) d ->
  forall t, dict_text true d = Ok t ->
  forall fuel n rest, stop rest -> (List.length t < fuel)%nat -> (List.length d <= n)%nat -> scan_pairs fuel n (t ++ 125 :: rest) = Ok (d, rest).
Proof.
  intros N F. induction F as [|[k v] d [K H] F IH]; [congruence|]. clear N. cbn [fst snd] in K, H.
  intros t E fuel n rest S Lf Ln. cbn [dict_text] in E. apply rbind_ok in E as (tv & Ev & E). apply rbind_ok in E as (tr & Er & E).
  apply Ok_eq in E. cbn [comma] in E. subst t. cbn [List.app] in Lf |- *. rewrite app_length, str_text_len in Lf. cbn [List.length] in Lf. rewrite app_length in Lf.
  pose proof (flat_len k) as FL.
  destruct n as [|n]; [cbn [List.length] in Ln; lia|]. cbn [scan_pairs]. rewrite <- app_assoc, str_text_app. cbn [List.app].
  unfold expect at 1. cbn [strip]. rewrite Z.eqb_refl. cbv iota. cbn [rbind].
  rewrite scan_str_text by (exact K || lia). cbn [rbind]. rewrite ws_colon.
  unfold expect at 1. cbn [strip]. rewrite Z.eqb_refl. cbv iota. cbn [rbind]. rewrite ws_space.
  rewrite <- app_assoc, ws_starts by (eapply dumps_starts; eassumption).
  destruct d as [|[k2 w] d].
  - cbn [dict_text] in Er. apply Ok_eq in Er. subst tr. cbn [List.app].
    rewrite (H _ Ev) by (cbn [stop]; auto || lia). cbn [rbind ws]. reflexivity.
  - cbn [dict_text] in Er, IH. apply rbind_ok in Er as (tw & Ew & Er). apply rbind_ok in Er as (tq & Eq & Er).
    apply Ok_eq in Er. cbn [comma] in Er. subst tr. cbn [List.app List.length] in Lf |- *.
    rewrite (H _ Ev) by (cbn [stop]; auto || lia). cbn [rbind]. rewrite ws_comma, ws_space.
    rewrite <- app_assoc. rewrite ws_starts by (eexists _, _; split; [reflexivity|tauto]).
    rewrite app_assoc. rewrite (IH ltac:(discriminate) (str_text k2 ++ 58 :: 32 :: tw ++ tq)); [reflexivity| |exact S| |cbn [List.length] in Ln |- *; lia].
    + rewrite Ew, Eq. reflexivity.
    + lia.
Qed.

Lemma not_93 {A} (c : Z) x (f g : str -> A) : c <> 93 -> match c :: x with 93 :: s => f s | s => g s end = g (c :: x).
Proof. intros N. destruct c as [|q|q]; try reflexivity. do 7 (destruct q as [q|q|]; try reflexivity; try lia). Qed.
Lemma list_text_len first l t : list_text first l = Ok t -> (List.length l <= List.length t)%nat.
Proof.
  revert first t; induction l as [|x l IH]; intros first t H; [cbn [List.length]; lia|]. cbn [list_text] in H.
  apply rbind_ok in H as (tv & Ev & H). apply rbind_ok in H as (tr & Er & H). apply Ok_eq in H. subst t.
  apply IH in Er. apply dumps_starts in Ev as (c & r & -> & _). rewrite !app_length. cbn [List.length]. lia.
Qed.
Lemma dict_text_len first d t : dict_text first d = Ok t -> (List.length d <= List.length t)%nat.
Proof.
  revert first t; induction d as [|[k x] d IH]; intros first t H; [cbn [List.length]; lia|]. cbn [dict_text] in H.
  apply rbind_ok in H as (tv & Ev & H). apply rbind_ok in H as (tr & Er & H). apply Ok_eq in H. subst t.
  apply IH in Er. rewrite !app_length. cbn [List.length]. lia.
Qed.
Lemma dumps_reads v : json_ok v -> forall t, dumps v = Ok t -> reads v t.
Proof.
  induction v as [|b|z|n d|s|u|u|x|x|l H|d H] using pv_induction; intros K t E fuel rest S L; try (inversion K; fail);
    (destruct fuel as [|fuel]; [lia|]).
  - cbn [dumps] in E. apply Ok_eq in E. subst t. reflexivity.
  - destruct b; cbn [dumps] in E; apply Ok_eq in E; subst t; reflexivity.
  - cbn [dumps] in E. apply Ok_eq in E. subst t. destruct (dumps_starts (PInt z) (int_text z) eq_refl) as (c & r & Ec & Hc).
    pose proof (scan_int_text z rest S) as R. unfold int_text in Ec.
    assert (D : 48 <= c <= 57 \/ c = 45).
    { destruct z as [|p|p]; cbn [Z.to_int] in Ec; [inversion Ec; lia| |inversion Ec; lia].
      destruct (digits_head _ (to_uint_plain p)) as (c' & r' & E' & B'). rewrite Ec in E'. inversion E'; subst. left. exact B'. }
    fold (int_text z) in Ec. rewrite Ec in R |- *. cbn [List.app] in R |- *. cbn [scan_once].
    replace (c =? 34) with false by lia. replace (c =? 123) with false by lia. replace (c =? 91) with false by lia.
    replace (c =? 110) with false by lia. replace (c =? 116) with false by lia. replace (c =? 102) with false by lia.
    rewrite R. reflexivity.
  - cbn [dumps] in E. apply Ok_eq in E. subst t. inversion K; subst. rewrite str_text_app. rewrite str_text_len in L.
    cbn [scan_once]. change (34 =? 34) with true. cbv iota. pose proof (flat_len s). rewrite scan_str_text by (assumption || lia). reflexivity.
  - rewrite dumps_list in E. apply rbind_ok in E as (t0 & E0 & E). apply Ok_eq in E. subst t. inversion K as [| | | |? Kl|]; subst.
    cbn [List.app]. rewrite scan_once_list, <- app_assoc. cbn [List.length] in L. rewrite app_length in L. cbn [List.length List.app] in L |- *.
    destruct l as [|v l].
    + cbn [list_text] in E0. apply Ok_eq in E0. subst t0. reflexivity.
    + assert (I : scan_items fuel fuel (t0 ++ 93 :: rest) = Ok (v :: l, rest)).
      { apply items_text; [discriminate| |exact E0|exact S|lia|apply list_text_len in E0; lia].
        apply Forall_forall. intros y Y. rewrite Forall_forall in H, Kl. apply H; [exact Y|]. apply Kl, Y. }
      assert (T : starts t0).
      { cbn [list_text] in E0. apply rbind_ok in E0 as (tv & Ev & E0). apply rbind_ok in E0 as (tr & _ & E0). apply Ok_eq in E0. subst t0.
        apply dumps_starts in Ev as (c & r & -> & B). exists c, (r ++ tr). split; [reflexivity|exact B]. }
      rewrite ws_starts by exact T. destruct T as (c & r & -> & B). cbn [List.app] in I |- *.
      rewrite (not_93 c (r ++ 93 :: rest) (fun s => Ok (PList [], s)) (fun s => rbind (scan_items fuel fuel s) (fun '(l, s) => Ok (PList l, s)))) by lia.
      rewrite I. reflexivity.
  - rewrite dumps_dict in E. apply rbind_ok in E as (t0 & E0 & E). apply Ok_eq in E. subst t. inversion K as [| | | | |? Nd Kd]; subst.
    cbn [List.app]. rewrite scan_once_dict, <- app_assoc. cbn [List.length] in L. rewrite app_length in L. cbn [List.length List.app] in L |- *.
    destruct d as [|[k v] d].
    + cbn [dict_text] in E0. apply Ok_eq in E0. subst t0. reflexivity.
    + assert (I : scan_pairs fuel fuel (t0 ++ 125 :: rest) = Ok ((k, v) :: d, rest)).
      { apply pairs_text; [discriminate| |exact E0|exact S|lia|apply dict_text_len in E0; lia].
        apply Forall_forall. intros y Y. rewrite Forall_forall in H, Kd. split; [apply Kd, Y|]. apply H; [exact Y|]. apply Kd, Y. }
      assert (T : exists r, t0 = 34 :: r).
      { cbn [dict_text] in E0. apply rbind_ok in E0 as (tv & Ev & E0). apply rbind_ok in E0 as (tr & _ & E0). apply Ok_eq in E0. subst t0.
        eexists. reflexivity. }
      destruct T as [r ->]. cbn [List.app] in I |- *. cbn [ws]. change ((34 =? 32) || (34 =? 9) || (34 =? 10) || (34 =? 13)) with false. cbv iota.
      rewrite I. cbn [rbind]. rewrite rebuild by exact Nd. reflexivity.
Qed.
Lemma dumps_total v : json_ok v -> exists t, dumps v = Ok t.
Proof.
  induction v as [|b|z|n d|s|u|u|x|x|l H|d H] using pv_induction; intros K; try (inversion K; fail).
  - eexists; reflexivity.
  - destruct b; eexists; reflexivity.
  - eexists; reflexivity.
  - eexists; reflexivity.
  - inversion K as [| | | |? Kl|]; subst. rewrite dumps_list. cut (forall first, exists t, list_text first l = Ok t).
    { intros C. destruct (C true) as [t ->]. eexists; reflexivity. }
    clear K. induction H as [|v l Hv H IH]; intros first; [eexists; reflexivity|]. inversion Kl; subst. cbn [list_text].
    destruct Hv as [tv ->]; [assumption|]. cbn [rbind]. destruct (IH ltac:(assumption) false) as [tr ->]. eexists; reflexivity.
  - inversion K as [| | | | |? Nd Kd]; subst. rewrite dumps_dict. cut (forall first, exists t, dict_text first d = Ok t).
    { intros C. destruct (C true) as [t ->]. eexists; reflexivity. }
    clear K Nd. induction H as [|[k v] d Hv H IH]; intros first; [eexists; reflexivity|]. inversion Kd as [|? ? [_ Kv] Kr]; subst. cbn [dict_text].
    destruct Hv as [tv Etv]; [exact Kv|]. cbn [snd] in Etv. rewrite Etv. cbn [rbind]. destruct (IH Kr false) as [tr ->]. eexists; reflexivity.
Qed.
Theorem loads_dumps v : json_ok v -> exists t, dumps v = Ok t /\ loads t = Ok v.
Proof.
  intros K. destruct (dumps_total v K) as [t E]. exists t. split; [exact E|].
  unfold loads. rewrite <- (app_nil_r t) at 2. rewrite ws_starts by (eapply dumps_starts; exact E).
  rewrite (dumps_reads v K t E) by (exact I || lia). reflexivity.
Qed.

(** The text is printable ASCII. *)
Definition ascii (c : Z) : Prop := 32 <= c <= 126.
Lemma hex_digit_ascii d : 0 <= d < 16 -> ascii (hex_digit d).
Proof. unfold hex_digit, ascii. destruct (d <? 10) eqn:E; lia. Qed.
Lemma u_escape_ascii n : Forall ascii (u_escape n).
Proof.
  unfold u_escape. repeat (apply Forall_cons; [try apply hex_digit_ascii; try apply Z.mod_pos_bound; unfold ascii; lia|]). constructor.
Qed.
Lemma char_text_ascii c : Forall ascii (char_text c).
Proof.
  unfold char_text. repeat (match goal with |- Forall _ (if ?b then _ else _) => destruct b eqn:?E end;
    [first [apply u_escape_ascii|repeat (apply Forall_cons; [unfold ascii; lia|]); constructor]|]).
  apply Forall_app. split; apply u_escape_ascii.
Qed.
Lemma str_text_ascii s : Forall ascii (str_text s).
Proof.
  unfold str_text. constructor; [unfold ascii; lia|]. apply Forall_app. split; [|constructor; [unfold ascii; lia|constructor]].
  induction s as [|c s IH]; [constructor|]. cbn [flat_map]. apply Forall_app. split; [apply char_text_ascii|exact IH].
Qed.
Lemma digits_ascii u : Forall ascii (digits u).
Proof. induction u; cbn [digits]; constructor; try assumption; unfold ascii; lia. Qed.
Lemma comma_ascii b : Forall ascii (comma b).
Proof. destruct b; cbn [comma]; repeat (apply Forall_cons; [unfold ascii; lia|]); constructor. Qed.
Theorem dumps_ascii v : forall t, dumps v = Ok t -> Forall ascii t.
Proof.
  induction v as [|b|z|n d|s|u|u|x|x|l H|d H] using pv_induction; intros t E; try discriminate E.
  - cbn [dumps] in E. apply Ok_eq in E. subst t. cbv [s2z]. repeat (apply Forall_cons; [unfold ascii; cbv; split; discriminate|]); constructor.
  - destruct b; cbn [dumps] in E; apply Ok_eq in E; subst t; cbv [s2z]; repeat (apply Forall_cons; [unfold ascii; cbv; split; discriminate|]); constructor.
  - cbn [dumps] in E. apply Ok_eq in E. subst t. unfold int_text. destruct (Z.to_int z); [apply digits_ascii|constructor; [unfold ascii; lia|apply digits_ascii]].
  - cbn [dumps] in E. apply Ok_eq in E. subst t. apply str_text_ascii.
  - rewrite dumps_list in E. apply rbind_ok in E as (t0 & E0 & E). apply Ok_eq in E. subst t. constructor; [unfold ascii; lia|].
    apply Forall_app. split; [|constructor; [unfold ascii; lia|constructor]]. revert t0 E0. generalize true.
    induction H as [|v l Hv H IH]; intros b t0 E0; cbn [list_text] in E0; [apply Ok_eq in E0; subst; constructor|].
    apply rbind_ok in E0 as (tv & Ev & E0). apply rbind_ok in E0 as (tr & Er & E0). apply Ok_eq in E0. subst t0.
    apply Forall_app. split; [apply comma_ascii|]. apply Forall_app. split; [apply Hv, Ev|eapply IH; exact Er].
  - rewrite dumps_dict in E. apply rbind_ok in E as (t0 & E0 & E). apply Ok_eq in E. subst t. constructor; [unfold ascii; lia|].
    apply Forall_app. split; [|constructor; [unfold ascii; lia|constructor]]. revert t0 E0. generalize true.
    induction H as [|[k v] d Hv H IH]; intros b t0 E0; cbn [dict_text] in E0; [apply Ok_eq in E0; subst; constructor|].
    apply rbind_ok in E0 as (tv & Ev & E0). apply rbind_ok in E0 as (tr & Er & E0). apply Ok_eq in E0. subst t0.
    apply Forall_app. split; [apply comma_ascii|]. apply Forall_app. split; [apply str_text_ascii|].
    apply Forall_app. split; [repeat (apply Forall_cons; [unfold ascii; lia|]); constructor|].
    apply Forall_app. split; [apply Hv, Ev|eapply IH; exact Er].
Qed.
