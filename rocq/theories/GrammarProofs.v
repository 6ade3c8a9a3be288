(** [loads] reads exactly the texts of the grammar. *)
From Coq Require Import String Lia ZifyBool ZifyNat Decimal.
From Verif Require Import Base BaseProofs PyValue PyValueProofs Json JsonProofs JsonFuel GrammarSpec.
Local Open Scope list_scope.

(** ** White space. *)
Definition is_white (c : Z) : bool := (c =? 32) || (c =? 9) || (c =? 10) || (c =? 13).
Lemma white_in c : is_white c = true <-> In c [32; 9; 10; 13].
Proof. unfold is_white. cbn [In]. lia. Qed.
Lemma ws_white c s : is_white c = true -> ws (c :: s) = ws s.
Proof. intros H. cbn [ws]. unfold is_white in H. rewrite H. reflexivity. Qed.
Lemma ws_other c s : is_white c = false -> ws (c :: s) = c :: s.
Proof. intros H. cbn [ws]. unfold is_white in H. rewrite H. reflexivity. Qed.
Lemma ws_blank w s : blank w -> ws (w ++ s) = ws s.
Proof. induction 1 as [|c w H F IH]; [reflexivity|]. cbn [List.app]. rewrite ws_white by (apply white_in, H). exact IH. Qed.
Lemma ws_blank_all w : blank w -> ws w = [].
Proof. intros B. rewrite <- (app_nil_r w). rewrite ws_blank by exact B. reflexivity. Qed.
Lemma ws_split s : exists w, blank w /\ s = w ++ ws s.
Proof.
  induction s as [|c s (w & B & E)]; [exists []; split; [constructor|reflexivity]|].
  destruct (is_white c) eqn:W.
  - rewrite ws_white by exact W. exists (c :: w). split; [constructor; [apply white_in, W|exact B]|]. cbn [List.app]. rewrite <- E. reflexivity.
  - rewrite ws_other by exact W. exists []. split; [constructor|reflexivity].
Qed.
Lemma blank_app a b : blank a -> blank b -> blank (a ++ b).
Proof. intros A B. apply Forall_app. split; assumption. Qed.

(** ** Characters. *)
Lemma hex_is_val c d : hex_is c d -> hex_val c = Some d.
Proof.
  unfold hex_val. intros [H|H|H].
  - replace ((48 <=? c) && (c <=? 57)) with true by lia. reflexivity.
  - replace ((48 <=? c) && (c <=? 57)) with false by lia. replace ((97 <=? c) && (c <=? 102)) with true by lia. f_equal. lia.
  - replace ((48 <=? c) && (c <=? 57)) with false by lia. replace ((97 <=? c) && (c <=? 102)) with false by lia. replace ((65 <=? c) && (c <=? 70)) with true by lia. f_equal. lia.
Qed.
Lemma hex_val_is c d : hex_val c = Some d -> hex_is c d.
Proof.
  unfold hex_val. destruct ((48 <=? c) && (c <=? 57)) eqn:A; [intros H; injection H; intros <-; apply hex_digit_is; lia|].
  destruct ((97 <=? c) && (c <=? 102)) eqn:B; [intros H; injection H; intros <-; replace (c - 87) with (10 + (c - 97)) by lia; apply hex_lower_is; lia|].
  destruct ((65 <=? c) && (c <=? 70)) eqn:C; [|discriminate]. intros H; injection H; intros <-; replace (c - 55) with (10 + (c - 65)) by lia; apply hex_upper_is; lia.
Qed.
Lemma hex_range c d : hex_is c d -> 0 <= d < 16.
Proof. intros []; lia. Qed.
Lemma four_hex4 h u s : four h u -> hex4 (h ++ s) = Some (u, s).
Proof.
  intros [a b c d i j k l A B C D]. cbn [List.app hex4]. rewrite (hex_is_val _ _ A), (hex_is_val _ _ B), (hex_is_val _ _ C), (hex_is_val _ _ D). f_equal. f_equal. lia.
Qed.
Lemma hex4_four s u r : hex4 s = Some (u, r) -> exists h, s = h ++ r /\ four h u.
Proof.
  unfold hex4. destruct s as [|a [|b [|c [|d s]]]]; try discriminate.
  destruct (hex_val a) as [i|] eqn:A; [|discriminate]. destruct (hex_val b) as [j|] eqn:B; [|discriminate].
  destruct (hex_val c) as [k|] eqn:C; [|discriminate]. destruct (hex_val d) as [l|] eqn:D; [|discriminate].
  intros H. injection H. intros <- <-. exists [a; b; c; d]. split; [reflexivity|].
  replace (i * 4096 + j * 256 + k * 16 + l) with (((i * 16 + j) * 16 + k) * 16 + l) by lia. constructor; apply hex_val_is; assumption.
Qed.
(** What follows a high surrogate. *)
Definition after_high (u : Z) (s1 : str) : lexed := match s1 with
  | 92 :: 117 :: s' => match hex4 s' with Some (u2, s'') => if (0xdc00 <=? u2) && (u2 <=? 0xdfff) then LChar (65536 + Z.lor (Z.shiftl (u - 0xd800) 10) (u2 - 0xdc00)) s'' else LChar u s1 | None => LBad end
  | _ => LChar u s1 end.
Lemma after_high_cases u s1 : (exists s', s1 = 92 :: 117 :: s') \/ after_high u s1 = LChar u s1.
Proof.
  unfold after_high. destruct s1 as [|a [|b s2]]; try (right; destruct a as [|p|p]; try reflexivity; do 7 (destruct p as [p|p|]; try reflexivity); fail); [right; reflexivity|].
  destruct (Z.eq_dec a 92) as [->|N1]; [destruct (Z.eq_dec b 117) as [->|N2]; [left; eauto|]|].
  - right. destruct b as [|p|p]; try reflexivity. do 7 (destruct p as [p|p|]; try reflexivity). congruence.
  - right. destruct a as [|p|p]; try reflexivity. do 7 (destruct p as [p|p|]; try reflexivity). congruence.
Qed.
Definition is_high (u : Z) : bool := (0xd800 <=? u) && (u <=? 0xdbff).
Definition is_low (u : Z) : bool := (0xdc00 <=? u) && (u <=? 0xdfff).
Lemma lex_u s : lex (92 :: 117 :: s) = match hex4 s with None => LBad | Some (u, s1) => if is_high u then after_high u s1 else LChar u s1 end.
Proof. reflexivity. Qed.
Lemma after_high_u u s' : after_high u (92 :: 117 :: s') =
  match hex4 s' with Some (u2, s'') => if is_low u2 then LChar (65536 + Z.lor (Z.shiftl (u - 0xd800) 10) (u2 - 0xdc00)) s'' else LChar u (92 :: 117 :: s') | None => LBad end.
Proof. reflexivity. Qed.
Lemma pair_value u u' : low u' -> 65536 + Z.lor (Z.shiftl (u - 0xd800) 10) (u' - 0xdc00) = 0x10000 + (u - 0xd800) * 0x400 + (u' - 0xdc00).
Proof. unfold low. intros L. rewrite lor_shift by (change (2 ^ 10) with 1024; lia). change (2 ^ 10) with 1024. lia. Qed.
Lemma high_is u : is_high u = true <-> high u.
Proof. unfold is_high, high. lia. Qed.
Lemma low_is u : is_low u = true <-> low u.
Proof. unfold is_low, low. lia. Qed.
(** Where the text of characters goes on with an escape, it is a whole one. *)
Lemma chars_u t v rest s' : chars t v -> t ++ 34 :: rest = 92 :: 117 :: s' -> exists h u r, four h u /\ t = 92 :: 117 :: h ++ r /\ s' = h ++ r ++ 34 :: rest.
Proof.
  intros C E. destruct C as [|c t v L N1 N2 C|e c t v I C|h u t v F N C|h u h' u' t v F H F' L C]; cbn [List.app] in E.
  - discriminate E.
  - injection E. intros _ ->. congruence.
  - injection E. intros _ ->. exfalso. cbn [In] in I. repeat (destruct I as [I|I]; [discriminate I|]). exact I.
  - injection E. intros <-. exists h, u, t. rewrite <- app_assoc. auto.
  - injection E. intros <-. exists h, u, (92 :: 117 :: h' ++ t). rewrite <- app_assoc. auto.
Qed.
Lemma starts_low_hex t rest h u r : t = 92 :: 117 :: h ++ r -> four h u -> ~ starts_low t -> rest = h ++ r -> is_low u = false.
Proof. intros -> F N _. destruct (is_low u) eqn:E; [|reflexivity]. exfalso. apply N. exists h, u, r. apply low_is in E. auto. Qed.
Lemma chars_scan t v : chars t v -> forall fuel rest, (List.length t < fuel)%nat -> scan_str fuel (t ++ 34 :: rest) = Ok (v, rest).
Proof.
  induction 1 as [|c t v L N1 N2 C IH|e c t v I C IH|h u t v F N C IH|h u h' u' t v F H F' L C IH]; intros fuel rest Lf;
    (destruct fuel as [|fuel]; [cbn [List.length] in Lf; lia|]); cbn [List.app scan_str].
  - reflexivity.
  - cbn [List.length] in Lf. unfold lex. replace (c =? 34) with false by lia. replace (c =? 92) with false by lia. replace (c <? 32) with false by lia. rewrite IH by lia. reflexivity.
  - cbn [List.length] in Lf. assert (E : lex (92 :: e :: t ++ 34 :: rest) = LChar c (t ++ 34 :: rest)).
    { cbn [In] in I. repeat (destruct I as [I|I]; [injection I; intros <- <-; reflexivity|]). contradiction. }
    rewrite E, IH by lia. reflexivity.
  - rewrite <- app_assoc. cbn [List.length] in Lf. rewrite app_length in Lf. rewrite lex_u, (four_hex4 h u (t ++ 34 :: rest) F).
    assert (E : (if is_high u then after_high u (t ++ 34 :: rest) else LChar u (t ++ 34 :: rest)) = LChar u (t ++ 34 :: rest)).
    { destruct (is_high u) eqn:Hu; [|reflexivity]. destruct (after_high_cases u (t ++ 34 :: rest)) as [(s' & E)|E]; [|exact E].
      destruct (chars_u t v rest s' C E) as (h' & u' & r & F' & E1 & E2). rewrite E, after_high_u, E2, (four_hex4 h' u' _ F').
      replace (is_low u') with false; [reflexivity|]. destruct (is_low u') eqn:Lu; [|reflexivity]. exfalso. apply N. split; [apply high_is, Hu|].
      exists h', u', r. apply low_is in Lu. auto. }
    rewrite E, IH by lia. reflexivity.
  - rewrite <- app_assoc. cbn [List.app]. rewrite <- app_assoc. cbn [List.length] in Lf. rewrite app_length in Lf. cbn [List.length] in Lf. rewrite app_length in Lf.
    rewrite lex_u, (four_hex4 h u _ F). replace (is_high u) with true by (symmetry; apply high_is, H).
    rewrite after_high_u, (four_hex4 h' u' _ F'). replace (is_low u') with true by (symmetry; apply low_is, L).
    rewrite IH by lia. cbn [rbind]. rewrite (pair_value u u' L). reflexivity.
Qed.
Lemma scan_chars fuel : forall s v r, scan_str fuel s = Ok (v, r) -> exists t, s = t ++ 34 :: r /\ chars t v.
Proof.
  induction fuel as [|fuel IH]; intros s v r H; [discriminate H|]. cbn [scan_str] in H.
  destruct s as [|c s]; [discriminate H|].
  destruct (Z.eq_dec c 34) as [->|N1].
  { change (lex (34 :: s)) with (LEnd s) in H. apply Ok_eq, pair_equal_spec in H as [<- <-]. exists []. split; [reflexivity|constructor]. }
  assert (K : forall c0 s0, rbind (scan_str fuel s0) (fun '(t, s) => Ok (c0 :: t, s)) = Ok (v, r) -> exists t v', v = c0 :: v' /\ s0 = t ++ 34 :: r /\ chars t v').
  { intros c0 s0 E. apply rbind_ok in E as ([v' r'] & E1 & E2). apply Ok_eq, pair_equal_spec in E2 as [<- <-]. apply IH in E1 as (t & E1 & C). exists t, v'. auto. }
  destruct (Z.eq_dec c 92) as [->|N2].
  2:{ unfold lex in H. replace (c =? 34) with false in H by lia. replace (c =? 92) with false in H by lia. destruct (c <? 32) eqn:L; [discriminate H|].
      apply K in H as (t & v' & -> & -> & C). exists (c :: t). split; [reflexivity|]. apply ch_plain; try assumption; lia. }
  destruct s as [|e s]; [discriminate H|].
  destruct (Z.eq_dec e 117) as [->|N3].
  2:{ assert (E : lex (92 :: e :: s) = match unescape e with Some c => LChar c s | None => LBad end).
      { unfold lex. replace (e =? 117) with false by lia. reflexivity. }
      rewrite E in H. destruct (unescape e) as [c|] eqn:U; [|discriminate H]. apply K in H as (t & v' & -> & -> & C).
      exists (92 :: e :: t). split; [reflexivity|]. apply ch_escape; [|exact C]. unfold unescape in U. cbn [In].
      repeat match type of U with (if ?a =? ?b then _ else _) = _ => destruct (Z.eqb_spec a b); [injection U; intros <-; subst; tauto|] end. discriminate U. }
  rewrite lex_u in H. destruct (hex4 s) as [[u s1]|] eqn:X; [|discriminate H]. apply hex4_four in X as (h & -> & F).
  assert (P : ~ (high u /\ exists h' u' r', s1 = 92 :: 117 :: h' ++ r' /\ four h' u' /\ low u') ->
              rbind (scan_str fuel s1) (fun '(t, s) => Ok (u :: t, s)) = Ok (v, r) -> exists t, 92 :: 117 :: h ++ s1 = t ++ 34 :: r /\ chars t v).
  { intros N E. apply K in E as (t & v' & -> & -> & C). exists (92 :: 117 :: h ++ t). split; [cbn [List.app]; rewrite <- app_assoc; reflexivity|].
    apply ch_unit; [exact F| |exact C]. intros [A (h' & u' & r' & -> & B)]. apply N. split; [exact A|]. exists h', u', (r' ++ 34 :: r). cbn [List.app]. rewrite <- app_assoc. split; [reflexivity|exact B]. }
  destruct (is_high u) eqn:Hu.
  2:{ apply P; [|exact H]. intros [A _]. apply high_is in A. congruence. }
  destruct (after_high_cases u s1) as [(s' & ->)|E].
  - rewrite after_high_u in H. destruct (hex4 s') as [[u2 s2]|] eqn:X2; [|discriminate H]. destruct (is_low u2) eqn:Lu.
    + apply hex4_four in X2 as (h2 & -> & F2). apply K in H as (t & v' & -> & -> & C). apply high_is in Hu. apply low_is in Lu.
      rewrite (pair_value u u2 Lu). exists (92 :: 117 :: h ++ 92 :: 117 :: h2 ++ t). split; [cbn [List.app]; rewrite <- app_assoc; cbn [List.app]; rewrite <- app_assoc; reflexivity|].
      apply ch_pair; assumption.
    + apply P; [|exact H]. intros [_ (h' & u' & r' & E & F' & L')]. injection E. intros ->. rewrite (four_hex4 h' u' r' F') in X2. injection X2. intros _ <-. apply low_is in L'. congruence.
  - rewrite E in H. destruct s1 as [|a s1'] eqn:S1; [apply P; [|exact H]; intros [_ (h' & u' & r' & D & _)]; discriminate D|]. rewrite <- S1 in *.
    apply P; [|exact H]. intros [_ (h' & u' & r' & D & F' & L')]. rewrite D, after_high_u, (four_hex4 h' u' r' F') in E. replace (is_low u') with true in E by (symmetry; apply low_is, L').
    injection E. intros E2 _. apply (f_equal (@List.length Z)) in E2. cbn [List.length] in E2. rewrite app_length in E2. lia.
Qed.

(** ** Integers. *)
Definition ends (r : str) : Prop := match r with [] => True | c :: _ => ~ (48 <= c <= 57) /\ c <> 46 /\ c <> 101 /\ c <> 69 end.
Definition no_digit (r : str) : Prop := match r with [] => True | c :: _ => ~ (48 <= c <= 57) end.
Lemma scan_digits_text2 u rest : no_digit rest -> scan_digits (digits u ++ rest) = (u, rest).
Proof.
  intros S. induction u as [|u IH|u IH|u IH|u IH|u IH|u IH|u IH|u IH|u IH|u IH]; cbn [digits List.app];
    [|cbn [scan_digits]; rewrite IH; reflexivity..].
  destruct rest as [|c rest]; [reflexivity|]. cbn [scan_digits no_digit] in *. destruct (scan_digits rest).
  repeat match goal with |- context [c =? ?k] => replace (c =? k) with false by lia end. reflexivity.
Qed.
Lemma scan_digits_split s : s = digits (fst (scan_digits s)) ++ snd (scan_digits s) /\ no_digit (snd (scan_digits s)).
Proof.
  induction s as [|c s IH]; [split; reflexivity|]. cbn [scan_digits]. destruct (scan_digits s) as [u r]. cbn [fst snd] in IH. destruct IH as [IH N].
  repeat match goal with |- context [c =? ?k] => destruct (Z.eqb_spec c k); [subst c; cbn [fst snd digits List.app]; split; [congruence|exact N]|] end.
  cbn [fst snd digits List.app no_digit]. split; [reflexivity|lia].
Qed.
Lemma digits_of ds : Forall (fun c => 48 <= c <= 57) ds -> exists u, digits u = ds.
Proof.
  induction 1 as [|c ds H F (u & <-)]; [exists Nil; reflexivity|].
  assert (E : c = 48 \/ c = 49 \/ c = 50 \/ c = 51 \/ c = 52 \/ c = 53 \/ c = 54 \/ c = 55 \/ c = 56 \/ c = 57) by lia.
  destruct E as [->|[->|[->|[->|[->|[->|[->|[->|[->| ->]]]]]]]]].
  - exists (D0 u); reflexivity.
  - exists (D1 u); reflexivity.
  - exists (D2 u); reflexivity.
  - exists (D3 u); reflexivity.
  - exists (D4 u); reflexivity.
  - exists (D5 u); reflexivity.
  - exists (D6 u); reflexivity.
  - exists (D7 u); reflexivity.
  - exists (D8 u); reflexivity.
  - exists (D9 u); reflexivity.
Qed.
Lemma digits_range u : Forall (fun c => 48 <= c <= 57) (digits u).
Proof. induction u; cbn [digits]; constructor; try assumption; lia. Qed.
Lemma acc_value u : forall p, Z.pos (Pos.of_uint_acc u p) = fold_left (fun a c => 10 * a + (c - 48)) (digits u) (Z.pos p).
Proof.
  induction u as [|u IH|u IH|u IH|u IH|u IH|u IH|u IH|u IH|u IH|u IH]; intros p; cbn [Pos.of_uint_acc digits fold_left]; [reflexivity|rewrite IH; f_equal; clear IH; lia..].
Qed.
Lemma uint_value u : Z.of_uint u = decimal (digits u).
Proof.
  unfold Z.of_uint, decimal. induction u as [|u IH|u IH|u IH|u IH|u IH|u IH|u IH|u IH|u IH|u IH]; cbn [Pos.of_uint digits fold_left Z.of_N]; [reflexivity|exact IH|rewrite acc_value; reflexivity..].
Qed.
Lemma scan_nat_cases s : (exists t, s = 48 :: t /\ scan_nat s = Ok (D0 Nil, t)) \/
  (hd 0 s <> 48 /\ scan_nat s = match scan_digits s with (Nil, _) => Err EValue | r => Ok r end).
Proof.
  unfold scan_nat. destruct s as [|c s]; [right; split; [discriminate|reflexivity]|]. destruct (Z.eq_dec c 48) as [->|N]; [left; eauto|].
  right. split; [exact N|]. destruct c as [|p|p]; try reflexivity. do 6 (destruct p as [p|p|]; try reflexivity). congruence.
Qed.
Lemma scan_nat_sound s u r : scan_nat s = Ok (u, r) -> s = digits u ++ r /\ natural (digits u).
Proof.
  intros H. destruct (scan_nat_cases s) as [(t & -> & E)|[N E]]; rewrite E in H.
  - apply Ok_eq, pair_equal_spec in H as [<- <-]. split; [reflexivity|]. cbn [digits]. split; [discriminate|]. split; [constructor; [lia|constructor]|reflexivity].
  - pose proof (proj1 (scan_digits_split s)) as P. destruct (scan_digits s) as [u' r'] eqn:D. cbn [fst snd] in P.
    assert (Q : (u', r') = (u, r) /\ u' <> Nil) by (destruct u'; try discriminate H; (split; [exact (Ok_eq _ _ H)|discriminate])).
    destruct Q as [Q NN]. apply pair_equal_spec in Q as [-> ->]. split; [exact P|]. split; [intros Z; apply NN; destruct u; (reflexivity || discriminate Z)|]. split; [apply digits_range|].
    intros Hd. exfalso. apply N. rewrite P. destruct u; [congruence|exact Hd..].
Qed.
Lemma scan_nat_complete ds r : natural ds -> no_digit r -> exists u, digits u = ds /\ scan_nat (ds ++ r) = Ok (u, r).
Proof.
  intros (N & F & Z0) D. destruct (digits_of ds F) as (u & <-). exists u. split; [reflexivity|].
  destruct (scan_nat_cases (digits u ++ r)) as [(t & E1 & E2)|[N1 E]].
  - destruct u as [|u|u|u|u|u|u|u|u|u|u]; cbn [digits List.app] in E1; try discriminate E1; [destruct N; reflexivity|]. cbn [digits hd] in Z0. specialize (Z0 eq_refl). injection Z0. intros Z1.
    destruct u; try discriminate Z1. reflexivity.
  - rewrite E, scan_digits_text2 by exact D. destruct u; [destruct N; reflexivity|reflexivity..].
Qed.
Lemma scan_int_cases s : (exists t, s = 45 :: t /\ match s with 45 :: t => (true, t) | _ => (false, s) end = (true, t)) \/
  (hd 0 s <> 45 /\ match s with 45 :: t => (true, t) | _ => (false, s) end = (false, s)).
Proof.
  destruct s as [|c s]; [right; split; [discriminate|reflexivity]|]. destruct (Z.eq_dec c 45) as [->|N]; [left; eauto|].
  right. split; [exact N|]. destruct c as [|p|p]; try reflexivity. do 6 (destruct p as [p|p|]; try reflexivity). congruence.
Qed.
Lemma ends_digit r : ends r -> no_digit r.
Proof. destruct r; [trivial|]. cbn [ends no_digit]. tauto. Qed.
Lemma after_number2 {A} rest (x y : A) : ends rest -> match rest with c :: _ => if (c =? 46) || (c =? 101) || (c =? 69) then x else y | [] => y end = y.
Proof. destruct rest as [|c rest]; [reflexivity|]. cbn [ends]. intros E. replace ((c =? 46) || (c =? 101) || (c =? 69)) with false by lia. reflexivity. Qed.
Lemma natural_not_minus ds : natural ds -> forall r, hd 0 (ds ++ r) <> 45.
Proof. intros (N & F & _) r. destruct ds as [|c ds]; [congruence|]. cbn [List.app hd]. apply Forall_inv in F. lia. Qed.
Lemma scan_number t z r : number t z -> ends r -> scan_int (t ++ r) = Ok (z, r).
Proof.
  intros [ds N|ds N] E; unfold scan_int; destruct (scan_nat_complete ds r N (ends_digit r E)) as (u & <- & S).
  - destruct (scan_int_cases (digits u ++ r)) as [(t' & E1 & _)|[_ C]].
    + exfalso. apply (natural_not_minus _ N r). rewrite E1. reflexivity.
    + rewrite C, S. cbn [rbind]. rewrite after_number2 by exact E. cbn [Z.of_int]. rewrite uint_value. reflexivity.
  - cbn [List.app]. cbv iota beta. rewrite S. cbn [rbind]. rewrite after_number2 by exact E. cbn [Z.of_int]. rewrite uint_value. reflexivity.
Qed.
Lemma scan_number_sound s z r : scan_int s = Ok (z, r) -> exists t, s = t ++ r /\ number t z.
Proof.
  unfold scan_int. intros H.
  assert (K : forall (neg : bool) s', rbind (scan_nat s') (fun '(u, t) =>
    match t with
    | c :: _ => if (c =? 46) || (c =? 101) || (c =? 69) then Err EValue else Ok (Z.of_int (if neg then Neg u else Pos u), t)
    | [] => Ok (Z.of_int (if neg then Neg u else Pos u), t)
    end) = Ok (z, r) -> exists u, s' = digits u ++ r /\ natural (digits u) /\ z = Z.of_int (if neg then Neg u else Pos u)).
  { intros neg s' E. apply rbind_ok in E as ([u t] & E1 & E2). apply scan_nat_sound in E1 as [-> N]. exists u.
    destruct t as [|c t]; [|destruct (_ || _) in E2; [discriminate E2|]]; apply Ok_eq, pair_equal_spec in E2 as [<- <-]; auto. }
  destruct (scan_int_cases s) as [(t & -> & _)|[_ C]].
  - apply (K true t) in H as (u & E & N & ->). cbn [Z.of_int]. rewrite uint_value. exists (45 :: digits u). rewrite E. split; [reflexivity|]. apply num_minus, N.
  - rewrite C in H. apply (K false s) in H as (u & E & N & ->). cbn [Z.of_int]. rewrite uint_value. exists (digits u). split; [exact E|]. apply num_plain, N.
Qed.

(** ** Objects. *)
Definition gathered (d : dict) : dict := fold_left (fun e kv => dset (fst kv) (snd kv) e) d [].
Lemma existsb_in (k : str) l : existsb (zlist_eqb k) l = true <-> In k l.
Proof.
  rewrite existsb_exists. split; [intros (x & I & E); apply zlist_eqb_eq in E; subst; exact I|]. intros I. exists k. split; [exact I|apply zlist_eqb_refl].
Qed.
Lemma firsts_ext l : forall a b, (forall k, In k a <-> In k b) -> firsts a l = firsts b l.
Proof.
  induction l as [|k l IH]; intros a b H; [reflexivity|]. cbn [firsts].
  replace (existsb (zlist_eqb k) b) with (existsb (zlist_eqb k) a).
  2:{ apply Bool.eq_iff_eq_true. rewrite !existsb_in. apply H. }
  destruct (existsb (zlist_eqb k) a); [apply IH, H|]. f_equal. apply IH. intros q. cbn [In]. rewrite H. tauto.
Qed.
Lemma gather_keys (d : dict) : forall e : dict, map fst (fold_left (fun e kv => dset (fst kv) (snd kv) e) d e) = map fst e ++ firsts (map fst e) (map fst d).
Proof.
  induction d as [|[k v] d IH]; intros e; cbn [fold_left map fst snd firsts]; [rewrite app_nil_r; reflexivity|].
  rewrite IH, dset_keys. unfold dhas. destruct (existsb (zlist_eqb k) (map fst e)) eqn:X.
  - apply existsb_in in X. destruct (dget k e) eqn:G; [reflexivity|]. apply dget_none in G. contradiction.
  - destruct (dget k e) eqn:G.
    + apply dget_in in G. apply (in_map fst) in G. cbn [fst] in G. apply existsb_in in G. congruence.
    + rewrite <- app_assoc. cbn [List.app]. f_equal. f_equal. apply firsts_ext. intros q. rewrite in_app_iff. cbn [In]. tauto.
Qed.
Lemma dget_app {A} k (a b : list (str * A)) : dget k (a ++ b) = match dget k a with Some v => Some v | None => dget k b end.
Proof. induction a as [|[k' v] a IH]; [reflexivity|]. cbn [List.app dget]. destruct (zlist_eqb k k'); [reflexivity|exact IH]. Qed.
Lemma gather_get q (d : dict) : forall e : dict, dget q (fold_left (fun e kv => dset (fst kv) (snd kv) e) d e) = match dget q (rev d) with Some v => Some v | None => dget q e end.
Proof.
  induction d as [|[k v] d IH]; intros e; cbn [fold_left rev fst snd]; [reflexivity|]. rewrite IH, dget_app. destruct (dget q (rev d)); [reflexivity|].
  cbn [dget]. destruct (zlist_eqb q k) eqn:E.
  - apply zlist_eqb_eq in E. subst. apply dget_set_same.
  - apply zlist_eqb_neq in E. apply dget_set_other. congruence.
Qed.
Lemma gathered_gathers d : gathers d (gathered d).
Proof. unfold gathers, gathered. rewrite gather_keys. split; [reflexivity|]. intros k. rewrite gather_get. destruct (dget k (rev d)); reflexivity. Qed.
Lemma firsts_nodup l : forall seen, NoDup (firsts seen l) /\ forall k, In k (firsts seen l) -> ~ In k seen.
Proof.
  induction l as [|k l IH]; intros seen; cbn [firsts]; [split; [constructor|contradiction]|].
  destruct (existsb (zlist_eqb k) seen) eqn:X; [apply IH|]. destruct (IH (k :: seen)) as [N D]. split.
  - constructor; [|exact N]. intros I. apply (D k I). left. reflexivity.
  - intros q [<-|I] J; [apply existsb_in in J; congruence|]. apply (D q I). right. exact J.
Qed.
Lemma same_dict {A} (a : list (str * A)) : forall b, map fst a = map fst b -> NoDup (map fst a) -> (forall k, dget k a = dget k b) -> a = b.
Proof.
  induction a as [|[k v] a IH]; intros [|[k' w] b] E N G; try discriminate E; [reflexivity|]. cbn [map fst] in E, N. injection E. intros E2 <-. inversion N as [|? ? N1 N2]; subst.
  pose proof (G k) as Gk. cbn [dget] in Gk. rewrite zlist_eqb_refl in Gk. injection Gk. intros ->. f_equal. apply IH; [exact E2|exact N2|].
  intros q. destruct (zlist_eqb q k) eqn:X.
  - apply zlist_eqb_eq in X. subst q. transitivity (@None A); [apply dget_none, N1|]. symmetry. apply dget_none. rewrite <- E2. exact N1.
  - specialize (G q). cbn [dget] in G. rewrite X in G. exact G.
Qed.
Lemma gathers_one d e : gathers d e -> e = gathered d.
Proof.
  intros [K G]. destruct (gathered_gathers d) as [K' G']. apply same_dict; [congruence| |intros k; rewrite G, G'; reflexivity]. rewrite K. apply firsts_nodup.
Qed.
