(** The budget of [loads] is always enough. *)
From Coq Require Import String Lia ZifyBool ZifyNat Decimal.
From Verif Require Import Base BaseProofs PyValue Json JsonProofs.
Local Open Scope list_scope.

Definition fine {A} (n : nat) (r : res (A * str)) : Prop := match r with Ok (_, t) => (List.length t < n)%nat | Err e => e <> EFuel end.
Lemma fine_err {A} n e : e <> EFuel -> @fine A n (Err e).
Proof. auto. Qed.
Lemma fine_bind {A B} n m (r : res (A * str)) (k : A * str -> res (B * str)) : fine n r -> (forall v t, (List.length t < n)%nat -> fine m (k (v, t))) -> fine m (rbind r k).
Proof. intros H K. destruct r as [[v t]|e]; cbn [rbind]; [apply K; exact H|exact H]. Qed.
Lemma ws_len s : (List.length (ws s) <= List.length s)%nat.
Proof. induction s as [|c s IH]; cbn [ws]; [lia|]. destruct (_ || _); cbn [List.length]; lia. Qed.
Lemma strip_len w s t : strip w s = Some t -> (List.length s = List.length w + List.length t)%nat.
Proof. revert s. induction w as [|x w IH]; intros s; cbn [strip]; [intros H; injection H; intros ->; reflexivity|]. destruct s as [|y s]; [discriminate|]. destruct (x =? y); [|discriminate]. intros H. cbn [List.length]. rewrite (IH s H). lia. Qed.
Lemma expect_len w s t : expect w s = Ok t -> (List.length s = List.length w + List.length t)%nat.
Proof. unfold expect. destruct (strip w s) eqn:E; [|discriminate]. intros H. apply Ok_eq in H. subst. exact (strip_len _ _ _ E). Qed.
Lemma expect_err w s e : expect w s = Err e -> e <> EFuel.
Proof. unfold expect. destruct (strip w s); [discriminate|]. intros H. injection H. intros <-. discriminate. Qed.
Lemma hex4_len s u t : hex4 s = Some (u, t) -> (List.length t < List.length s)%nat.
Proof.
  unfold hex4. destruct s as [|a [|b [|c [|d s]]]]; try discriminate. destruct (hex_val a), (hex_val b), (hex_val c), (hex_val d); try discriminate. intros H. injection H. intros <- _. cbn [List.length]. lia.
Qed.
Lemma lex_len s c t : lex s = LChar c t -> (List.length t < List.length s)%nat.
Proof.
  unfold lex. destruct s as [|x s]; [discriminate|]. destruct (x =? 34); [discriminate|]. destruct (x =? 92).
  - destruct s as [|e s]; [discriminate|]. destruct (e =? 117).
    + destruct (hex4 s) as [[u s1]|] eqn:E; [|discriminate]. pose proof (hex4_len _ _ _ E) as L. cbn [List.length].
      destruct (_ && _); [|intros H; injection H; intros; subst; lia].
      assert (G : (exists s', s1 = 92 :: 117 :: s') \/ match s1 with
                  | 92 :: 117 :: s' => match hex4 s' with Some (u2, s'') => if (0xdc00 <=? u2) && (u2 <=? 0xdfff) then LChar (65536 + Z.lor (Z.shiftl (u - 0xd800) 10) (u2 - 0xdc00)) s'' else LChar u s1 | None => LBad end
                  | _ => LChar u s1 end = LChar u s1).
      { destruct s1 as [|a [|b s2]]; try (right; destruct a as [|p|p]; try reflexivity; do 7 (destruct p as [p|p|]; try reflexivity); fail); [right; reflexivity|].
        destruct (Z.eq_dec a 92) as [->|N1]; [destruct (Z.eq_dec b 117) as [->|N2]; [left; eauto|]|].
        - right. destruct b as [|p|p]; try reflexivity. do 7 (destruct p as [p|p|]; try reflexivity). congruence.
        - right. destruct a as [|p|p]; try reflexivity. do 7 (destruct p as [p|p|]; try reflexivity). congruence. }
      destruct G as [[s' ->]|G].
      * cbn [List.length] in L. destruct (hex4 s') as [[u2 s2]|] eqn:E2; [|discriminate]. pose proof (hex4_len _ _ _ E2) as L2. destruct (_ && _); intros H; injection H; intros; subst; cbn [List.length]; lia.
      * rewrite G. intros H. injection H. intros; subst. lia.
    + destruct (unescape e); [|discriminate]. intros H. injection H. intros; subst. cbn [List.length]. lia.
  - destruct (x <? 32); [discriminate|]. intros H. injection H. intros; subst. cbn [List.length]. lia.
Qed.
Lemma lex_end s t : lex s = LEnd t -> (List.length t < List.length s)%nat.
Proof.
  unfold lex. destruct s as [|x s]; [discriminate|]. destruct (x =? 34); [intros H; injection H; intros <-; cbn [List.length]; lia|]. destruct (x =? 92).
  - destruct s as [|e s]; [discriminate|]. destruct (e =? 117); [|destruct (unescape e); discriminate]. destruct (hex4 s) as [[u s1]|]; [|discriminate]. destruct (_ && _); [|discriminate].
    destruct s1 as [|a [|b s2]]; [discriminate| |]; (destruct a as [|p|p]; try discriminate; do 7 (destruct p as [p|p|]; try discriminate)).
    destruct b as [|p|p]; try discriminate. do 7 (destruct p as [p|p|]; try discriminate). destruct (hex4 s2) as [[u2 s3]|]; [|discriminate]. destruct (_ && _); discriminate.
  - destruct (x <? 32); discriminate.
Qed.
Lemma scan_str_fine fuel : forall s, (List.length s < fuel)%nat -> fine (List.length s) (scan_str fuel s).
Proof.
  induction fuel as [|fuel IH]; intros s L; [lia|]. cbn [scan_str]. destruct (lex s) as [t|c t|] eqn:E; [|  |discriminate].
  - apply lex_end in E. cbn [fine]. exact E.
  - apply lex_len in E. eapply fine_bind; [apply IH; lia|]. intros v r H. cbn [fine]. lia.
Qed.
Lemma scan_digits_len s : (List.length (snd (scan_digits s)) <= List.length s)%nat /\ (fst (scan_digits s) <> Nil -> (List.length (snd (scan_digits s)) < List.length s)%nat).
Proof.
  induction s as [|c s IH]; cbn [scan_digits]; [split; [cbn; lia|intros H; destruct H; reflexivity]|]. destruct (scan_digits s) as [u r]. cbn [fst snd] in IH.
  repeat match goal with |- context [if ?b then _ else _] => destruct b; [cbn [fst snd List.length]; lia|] end. cbn [fst snd List.length]. split; [lia|]. intros H. destruct H. reflexivity.
Qed.
Lemma scan_nat_fine s : fine (List.length s) (scan_nat s).
Proof.
  unfold scan_nat. assert (G : fine (List.length s) (match scan_digits s with (Nil, _) => Err EValue | r => Ok r end)).
  { pose proof (scan_digits_len s) as [_ H]. destruct (scan_digits s) as [u r]. cbn [fst snd] in H. destruct u; cbn [fine]; try (apply H; discriminate). discriminate. }
  destruct s as [|c s]; [exact G|]. destruct c as [|p|p]; try exact G. do 6 (destruct p as [p|p|]; try exact G). cbn [fine List.length]. lia.
Qed.
Lemma scan_int_fine s : fine (List.length s) (scan_int s).
Proof.
  unfold scan_int.
  assert (G : forall (neg : bool) (s' : str), (List.length s' <= List.length s)%nat -> fine (List.length s)
     (rbind (scan_nat s') (fun '(u, t) => match t with c :: _ => if (c =? 46) || (c =? 101) || (c =? 69) then Err EValue else Ok (Z.of_int (if neg then Neg u else Pos u), t) | [] => Ok (Z.of_int (if neg then Neg u else Pos u), t) end))).
  { intros neg s' L. eapply fine_bind; [apply scan_nat_fine|]. intros u t H. destruct t as [|c t]; [cbn [fine] in *; lia|]. destruct (_ || _); [discriminate|]. cbn [fine] in *. lia. }
  destruct s as [|c s]; [apply (G false); lia|]. destruct c as [|p|p]; try (apply (G false); lia). do 6 (destruct p as [p|p|]; try (apply (G false); lia)). apply (G true). cbn [List.length]. lia.
Qed.
Lemma two_ways {A} (x y : Z) (c : Z) (r : str) (f g : str -> A) (h : A) : x = 44 -> (y = 93 \/ y = 125) ->
  (match y with 93 => match c :: r with 44 :: s => f s | 93 :: s => g s | _ => h end | _ => match c :: r with 44 :: s => f s | 125 :: s => g s | _ => h end end) =
  (if c =? 44 then f r else if c =? y then g r else h).
Proof.
  intros -> [->| ->].
  - destruct (c =? 44) eqn:B; [apply Z.eqb_eq in B; subst; reflexivity|]. destruct (c =? 93) eqn:B2; [apply Z.eqb_eq in B2; subst; reflexivity|].
    destruct c as [|p|p]; try reflexivity. do 8 (try destruct p as [p|p|]; try reflexivity); discriminate.
  - destruct (c =? 44) eqn:B; [apply Z.eqb_eq in B; subst; reflexivity|]. destruct (c =? 125) eqn:B2; [apply Z.eqb_eq in B2; subst; reflexivity|].
    destruct c as [|p|p]; try reflexivity. do 8 (try destruct p as [p|p|]; try reflexivity); discriminate.
Qed.
Lemma items_fine fuel : (forall s, (List.length s < fuel)%nat -> fine (List.length s) (scan_once fuel s)) ->
  forall n s, (List.length s < n)%nat -> (List.length s < fuel)%nat -> fine (List.length s) (scan_items fuel n s).
Proof.
  intros H. induction n as [|n IH]; intros s L F; [lia|]. cbn [scan_items]. eapply fine_bind; [apply H; exact F|]. intros v t E. pose proof (ws_len t) as W.
  destruct (ws t) as [|c r]; [discriminate|]. cbn [List.length] in W.
  rewrite (two_ways 44 93 c r (fun s => rbind (scan_items fuel n (ws s)) (fun '(l, s) => Ok (v :: l, s))) (fun s => Ok ([v], s)) (Err EValue)) by auto.
  destruct (c =? 44).
  - pose proof (ws_len r). eapply fine_bind; [apply IH; lia|]. intros l t' E'. cbn [fine]. lia.
  - destruct (c =? 93); [cbn [fine]; lia|discriminate].
Qed.
Lemma pairs_fine fuel : (forall s, (List.length s < fuel)%nat -> fine (List.length s) (scan_once fuel s)) ->
  forall n s, (List.length s < n)%nat -> (List.length s < fuel)%nat -> fine (List.length s) (scan_pairs fuel n s).
Proof.
  intros H. induction n as [|n IH]; intros s L F; [lia|]. cbn [scan_pairs]. destruct (expect [34] s) as [s1|e] eqn:E1; [|exact (expect_err _ _ _ E1)]. apply expect_len in E1. cbn [List.length] in E1. cbn [rbind].
  eapply fine_bind; [apply scan_str_fine; lia|]. intros k s2 L2. pose proof (ws_len s2) as W2. destruct (expect [58] (ws s2)) as [s3|e] eqn:E3; [|exact (expect_err _ _ _ E3)]. apply expect_len in E3. cbn [List.length] in E3. cbn [rbind].
  pose proof (ws_len s3) as W3. eapply fine_bind; [apply H; lia|]. intros v t E. pose proof (ws_len t) as W. destruct (ws t) as [|c r]; [discriminate|]. cbn [List.length] in W.
  rewrite (two_ways 44 125 c r (fun s => rbind (scan_pairs fuel n (ws s)) (fun '(d, s) => Ok ((k, v) :: d, s))) (fun s => Ok ([(k, v)], s)) (Err EValue)) by auto.
  destruct (c =? 44).
  - pose proof (ws_len r). eapply fine_bind; [apply IH; lia|]. intros l t' E'. cbn [fine]. lia.
  - destruct (c =? 125); [cbn [fine]; lia|discriminate].
Qed.
Lemma scan_once_fine fuel : forall s, (List.length s < fuel)%nat -> fine (List.length s) (scan_once fuel s).
Proof.
  induction fuel as [|fuel IH]; intros s L; [lia|]. destruct s as [|c t]; [discriminate|]. cbn [List.length] in *.
  destruct (Z.eq_dec c 123) as [->|N1].
  { rewrite scan_once_dict. pose proof (ws_len t) as W.
    assert (Q : forall x f, (List.length x <= List.length t)%nat -> fine (S (List.length t)) (rbind (scan_pairs fuel fuel x) (fun '(d, s) => Ok (f d : pv, s)))).
    { intros x f Lx. eapply fine_bind; [apply (pairs_fine fuel IH); lia|]. intros d s0 E. cbn [fine]. lia. }
    destruct (ws t) as [|c r]; [apply Q; exact W|]. cbn [List.length] in W.
    destruct c as [|p|p]; try (apply Q; exact W). do 8 (try destruct p as [p|p|]; try (apply Q; exact W)). cbn [fine]. lia. }
  destruct (Z.eq_dec c 91) as [->|N2].
  { rewrite scan_once_list. pose proof (ws_len t) as W.
    assert (Q : forall x f, (List.length x <= List.length t)%nat -> fine (S (List.length t)) (rbind (scan_items fuel fuel x) (fun '(d, s) => Ok (f d : pv, s)))).
    { intros x f Lx. eapply fine_bind; [apply (items_fine fuel IH); lia|]. intros d s0 E. cbn [fine]. lia. }
    destruct (ws t) as [|c r]; [apply Q; exact W|]. cbn [List.length] in W.
    destruct c as [|p|p]; try (apply Q; exact W). do 8 (try destruct p as [p|p|]; try (apply Q; exact W)). cbn [fine]. lia. }
  cbn [scan_once]. replace (c =? 123) with false by lia. replace (c =? 91) with false by lia.
  assert (W : forall w v, w <> [] -> fine (S (List.length t)) (rbind (expect w (c :: t)) (fun s => Ok (v : pv, s)))).
  { intros w v N. destruct (expect w (c :: t)) as [s|e] eqn:E; cbn [rbind]; [|exact (expect_err _ _ _ E)]. apply expect_len in E. cbn [fine]. cbn [List.length] in E. destruct w; [congruence|]. cbn [List.length] in E. lia. }
  destruct (c =? 34); [eapply fine_bind; [apply scan_str_fine; lia|]; intros v s0 E; cbn [fine]; lia|].
  destruct (c =? 110); [apply W; discriminate|]. destruct (c =? 116); [apply W; discriminate|]. destruct (c =? 102); [apply W; discriminate|].
  eapply fine_bind; [apply scan_int_fine|]. intros v s0 E. exact E.
Qed.
Theorem loads_fuel s : loads s <> Err EFuel.
Proof.
  unfold loads. pose proof (ws_len s) as W. pose proof (scan_once_fine (S (List.length s)) (ws s)) as H. specialize (H ltac:(lia)).
  destruct (scan_once (S (List.length s)) (ws s)) as [[v t]|e]; cbn [rbind fine] in *; [|congruence]. destruct (ws t); discriminate.
Qed.
