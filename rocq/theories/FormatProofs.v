From Coq Require Import String Lia ZifyBool ZifyNat.
From Verif Require Import Base BaseProofs Json JsonProofs StrFormat FormatSpec.
Local Open Scope list_scope.

Lemma format_doubled r : format_rest (doubled r) = Ok r.
Proof.
  induction r as [|c r IH]; [reflexivity|]. unfold doubled in *. cbn [flat_map].
  destruct (Z.eq_dec c 123) as [->|N1]; [|destruct (Z.eq_dec c 125) as [->|N2]].
  - change ((123 =? 123) || (123 =? 125)) with true. cbn iota. cbn [app format_rest]. change (123 =? 125) with false. change (123 =? 123) with true. cbn iota. rewrite IH. reflexivity.
  - change ((125 =? 123) || (125 =? 125)) with true. cbn iota. cbn [app format_rest]. change (125 =? 125) with true. cbn iota. rewrite IH. reflexivity.
  - replace ((c =? 123) || (c =? 125)) with false by lia. cbn [app format_rest]. replace (c =? 125) with false by lia. replace (c =? 123) with false by lia. rewrite IH. reflexivity.
Qed.

Lemma name_read n c t : fname n -> c = 125 \/ c = 58 \/ c = 33 -> field_name false (n ++ c :: t) = Ok (n, c, t).
Proof.
  intros H E. induction H as [|d n N H IH|b n N H IH].
  - cbn [app field_name]. replace (c =? 123) with false by lia. replace ((c =? 125) || (c =? 58) || (c =? 33)) with true by lia. reflexivity.
  - cbn [In] in N. cbn [app field_name]. replace (d =? 123) with false by lia. replace ((d =? 125) || (d =? 58) || (d =? 33)) with false by lia.
    replace (d =? 91) with false by lia. rewrite IH. reflexivity.
  - rewrite <- app_comm_cons. cbn [field_name]. change (91 =? 123) with false. change ((91 =? 125) || (91 =? 58) || (91 =? 33)) with false. change (91 =? 91) with true. cbn iota.
    assert (G : field_name true ((b ++ 93 :: n) ++ c :: t) = Ok (b ++ 93 :: n, c, t)).
    { induction b as [|d b IB].
      - cbn [app field_name]. change (negb (93 =? 93)) with false. rewrite IH. reflexivity.
      - cbn [app field_name]. cbn [In] in N. replace (negb (d =? 93)) with true by (assert (d <> 93) by (intros ->; apply N; now left); lia).
        rewrite IB by (intros I; apply N; now right). reflexivity. }
    rewrite G. reflexivity.
Qed.
Lemma read_name s : forall b n c t, field_name b s = Ok (n, c, t) -> s = n ++ c :: t /\ (c = 125 \/ c = 58 \/ c = 33) /\
  if b then exists x m, n = x ++ 93 :: m /\ ~ In 93 x /\ fname m else fname n.
Proof.
  induction s as [|d s IH]; intros b n c t H; [discriminate H|]. cbn [field_name] in H. destruct b.
  - apply rbind_ok in H as ([[n' c'] t'] & H & E). injection E as <- <- <-. apply IH in H as (-> & C & K). split; [reflexivity|]. split; [exact C|].
    destruct (d =? 93) eqn:D; cbn [negb] in K.
    + apply Z.eqb_eq in D. subst d. exists [], n'. split; [reflexivity|]. split; [easy|exact K].
    + destruct K as (x & m & -> & N & M). exists (d :: x), m. split; [reflexivity|]. split; [|exact M]. intros [->|I]; [discriminate D|contradiction].
  - destruct (d =? 123) eqn:D1; [discriminate H|]. destruct ((d =? 125) || (d =? 58) || (d =? 33)) eqn:D2.
    + injection H as <- <- <-. split; [reflexivity|]. split; [lia|constructor].
    + apply rbind_ok in H as ([[n' c'] t'] & H & E). injection E as <- <- <-. apply IH in H as (-> & C & K). split; [reflexivity|]. split; [exact C|].
      destruct (d =? 91) eqn:D.
      * apply Z.eqb_eq in D. subst d. destruct K as (x & m & -> & N & M). apply fn_index; assumption.
      * apply fn_plain; [cbn [In]; lia|exact K].
Qed.
Lemma name_error s : forall b e, field_name b s = Err e -> e = EValue.
Proof.
  induction s as [|d s IH]; intros b e H; [now injection H as <-|]. cbn [field_name] in H.
  assert (G : forall b', rbind (field_name b' s) (fun '(n, e, s) => Ok (d :: n, e, s)) = Err e -> e = EValue).
  { intros b' K. destruct (field_name b' s) as [[[n c] t]|e'] eqn:F; cbn [rbind] in K; [discriminate K|]. injection K as <-. exact (IH _ _ F). }
  destruct b; [exact (G _ H)|]. destruct (d =? 123); [now injection H as <-|]. destruct ((d =? 125) || (d =? 58) || (d =? 33)); [discriminate H|exact (G _ H)].
Qed.

Lemma spec_skip a : balanced a -> forall k s, spec_end (S k) (a ++ s) = spec_end (S k) s.
Proof.
  induction 1 as [|c a A B _ IH|a b _ IA _ IB]; intros k s; [reflexivity| |].
  - cbn [app spec_end]. replace (c =? 123) with false by lia. replace (c =? 125) with false by lia. apply IH.
  - cbn [app spec_end]. change (123 =? 123) with true. cbn iota. rewrite <- app_assoc, IA. cbn [app spec_end]. change (125 =? 123) with false. change (125 =? 125) with true. cbn iota. apply IB.
Qed.
Lemma spec_read s : forall k, spec_end (S k) s = Ok tt -> exists l r, List.length l = S k /\ Forall balanced l /\ s = flat_map (fun a => a ++ [125]) l ++ r.
Proof.
  induction s as [|c s IH]; intros k H; [discriminate H|]. cbn [spec_end] in H. destruct (c =? 123) eqn:C1; [|destruct (c =? 125) eqn:C2].
  - apply Z.eqb_eq in C1. subst c. apply IH in H as ([|a [|b l]] & r & L & F & ->); try discriminate L. apply Forall_cons_iff in F as [A F]. apply Forall_cons_iff in F as [B F].
    exists ((123 :: a ++ 125 :: b) :: l), r. split; [now injection L as <-|]. split; [constructor; [now constructor|exact F]|]. cbn [flat_map app]. rewrite <- !app_assoc. cbn [app]. reflexivity.
  - apply Z.eqb_eq in C2. subst c. destruct k as [|k].
    + exists [[]], s. split; [reflexivity|]. split; [repeat constructor|reflexivity].
    + apply IH in H as (l & r & L & F & ->). exists ([] :: l), r. split; [cbn [List.length]; now rewrite L|]. split; [constructor; [constructor|exact F]|reflexivity].
  - apply IH in H as ([|a l] & r & L & F & ->); [discriminate L|]. apply Forall_cons_iff in F as [A F]. exists ((c :: a) :: l), r. split; [exact L|].
    split; [constructor; [constructor; [lia|lia|exact A]|exact F]|reflexivity].
Qed.
Lemma spec_result s : forall k, spec_end k s = Ok tt \/ spec_end k s = Err EValue.
Proof.
  induction s as [|c s IH]; intros k; [now right|]. cbn [spec_end]. destruct (c =? 123); [apply IH|]. destruct (c =? 125); [|apply IH].
  destruct k as [|[|k]]; [now left|now left|apply IH].
Qed.
Lemma end_result c s : field_end c s = Ok tt \/ field_end c s = Err EValue.
Proof.
  unfold field_end. destruct (c =? 125); [now left|]. destruct (c =? 58); [apply spec_result|]. destruct s as [|d [|e s]]; [now right|now right|].
  destruct (e =? 125); [now left|]. destruct (e =? 58); [apply spec_result|now right].
Qed.
Lemma spec_one s : spec_end 1 s = Ok tt -> exists a r, s = a ++ 125 :: r /\ balanced a.
Proof.
  intros H. apply spec_read in H as ([|a [|b l]] & r & L & F & ->); try discriminate L. exists a, r. cbn [flat_map]. rewrite app_nil_r, <- app_assoc. split; [reflexivity|]. now inversion F.
Qed.

Lemma part_argument n : argument (first_part n) n.
Proof.
  induction n as [|c n [IH (t & E & T)]]; [split; [easy|exists []; auto]|]. cbn [first_part]. destruct ((c =? 46) || (c =? 91)) eqn:C.
  - split; [easy|]. exists (c :: n). split; [reflexivity|]. right. exists c, n. split; [reflexivity|lia].
  - split.
    + intros d [<-|I]; [lia|exact (IH d I)].
    + exists t. split; [cbn [app]; now f_equal|exact T].
Qed.
Lemma argument_part h n : argument h n -> first_part n = h.
Proof.
  intros [H (t & -> & T)]. induction h as [|c h IH].
  - destruct T as [->|(c & u & -> & C)]; [reflexivity|]. cbn [app first_part]. replace ((c =? 46) || (c =? 91)) with true by lia. reflexivity.
  - cbn [app first_part]. specialize (H c (or_introl eq_refl)) as H0. replace ((c =? 46) || (c =? 91)) with false by lia. rewrite IH; [reflexivity|]. intros d I. apply H. now right.
Qed.

(** Whether a field is there, and of what name. *)
Lemma field_read n s : rbind (field_name false s) (fun '(n, c, s) => rbind (field_end c s) (fun _ => Ok (first_part n))) = Ok n <->
  exists m, field m s /\ argument n m.
Proof.
  split.
  - intros H. apply rbind_ok in H as ([[m c] t] & H & K). apply rbind_ok in K as ([] & K & E). injection E as <-. exists m. split; [|apply part_argument].
    apply read_name in H as (-> & C & M). split; [exact M|]. unfold field_end in K. destruct (c =? 125) eqn:C1; [|destruct (c =? 58) eqn:C2].
    + apply Z.eqb_eq in C1. subst c. exists [], [], t. auto.
    + apply Z.eqb_eq in C2. subst c. apply spec_one in K as (a & r & -> & B). exists [], (58 :: a), r. split; [reflexivity|]. split; [now left|]. right. exists a. auto.
    + assert (c = 33) by lia. subst c. destruct t as [|d [|e t]]; [discriminate K|discriminate K|]. destruct (e =? 125) eqn:E1; [|destruct (e =? 58) eqn:E2; [|discriminate K]].
      * apply Z.eqb_eq in E1. subst e. exists [33; d], [], t. split; [reflexivity|]. split; [right; now exists d|now left].
      * apply Z.eqb_eq in E2. subst e. apply spec_one in K as (a & r & -> & B). exists [33; d], (58 :: a), r. split; [reflexivity|]. split; [right; now exists d|]. right. exists a. auto.
  - intros (m & (M & v & f & r & -> & V & F) & A). apply argument_part in A. subst n.
    assert (G : forall k, spec_end 1 (match f with _ :: a => a | [] => [] end ++ 125 :: r) = Ok tt -> k = Ok tt -> k = Ok tt) by auto. clear G.
    assert (G : forall a, balanced a -> spec_end 1 (a ++ 125 :: r) = Ok tt) by (intros a B; rewrite (spec_skip a B); reflexivity).
    destruct V as [->|(d & ->)]; destruct F as [->|(a & -> & B)]; cbn [app].
    + rewrite (name_read m 125 r M) by auto. reflexivity.
    + rewrite (name_read m 58) by auto. cbn [rbind]. change (field_end 58 (a ++ 125 :: r)) with (spec_end 1 (a ++ 125 :: r)). rewrite G by exact B. reflexivity.
    + rewrite (name_read m 33) by auto. reflexivity.
    + rewrite (name_read m 33) by auto. cbn [rbind]. change (field_end 33 (d :: 58 :: a ++ 125 :: r)) with (spec_end 1 (a ++ 125 :: r)). rewrite G by exact B. reflexivity.
Qed.
Lemma field_fails s e : rbind (field_name false s) (fun '(n, c, s) => rbind (field_end c s) (fun _ => Ok (first_part n))) = Err e -> e = EValue.
Proof.
  destruct (field_name false s) as [[[n c] t]|e'] eqn:F; cbn [rbind].
  - destruct (end_result c t) as [-> | ->]; cbn [rbind]; intros H; [discriminate H|now injection H as <-].
  - intros H. injection H as <-. exact (name_error _ _ _ F).
Qed.
Lemma digits_named h : h <> [] -> forallb is_digit h = false <-> named h.
Proof.
  intros _. split.
  - induction h as [|c h IH]; intros H; [discriminate H|]. cbn [forallb] in H. destruct (is_digit c) eqn:D.
    + destruct (IH H) as (d & I & N). exists d. split; [now right|exact N].
    + exists c. split; [now left|]. unfold is_digit in D. lia.
  - intros (c & I & N). apply not_true_is_false. intros F. rewrite forallb_forall in F. specialize (F c I). unfold is_digit in F. lia.
Qed.
Lemma error_field s : (field_error s = EIndex <-> exists n h, field n s /\ argument h n /\ next_one h) /\
  (field_error s = EKey <-> exists n h, field n s /\ argument h n /\ named h) /\
  (field_error s = EIndex \/ field_error s = EKey \/ field_error s = EValue).
Proof.
  unfold field_error. destruct (rbind (field_name false s) _) as [h|e] eqn:F.
  - assert (U : forall n h', field n s -> argument h' n -> h' = h).
    { intros n h' N A. assert (K : rbind (field_name false s) (fun '(n, c, s) => rbind (field_end c s) (fun _ => Ok (first_part n))) = Ok h') by (apply field_read; now exists n).
      rewrite F in K. now injection K as <-. }
    apply field_read in F as (m & M & A). destruct h as [|c h].
    + split; [|split; [|now left]]; split; intros H; try discriminate H; try reflexivity.
      * exists m, []. split; [exact M|]. split; [exact A|reflexivity].
      * destruct H as (n & h' & N & A' & (c & I & _)). rewrite (U n h' N A') in I. destruct I.
    + destruct (forallb is_digit (c :: h)) eqn:D; (split; [|split; [|auto]]); split; intros H; try discriminate H; try reflexivity.
      * destruct H as (n & h' & N & A' & E). rewrite (U n h' N A') in E. discriminate E.
      * destruct H as (n & h' & N & A' & E). rewrite (U n h' N A') in E. apply (digits_named (c :: h)) in E; [congruence|discriminate].
      * destruct H as (n & h' & N & A' & E). rewrite (U n h' N A') in E. discriminate E.
      * exists m, (c :: h). split; [exact M|]. split; [exact A|]. apply digits_named; [discriminate|exact D].
  - assert (N : ~ exists n h, field n s /\ argument h n).
    { intros (n & h & N & A). assert (K : rbind (field_name false s) (fun '(n, c, s) => rbind (field_end c s) (fun _ => Ok (first_part n))) = Ok h) by (apply field_read; now exists n).
      rewrite F in K. discriminate K. }
    apply field_fails in F. subst e. split; [|split; [|auto]]; split; intros H; try discriminate H; destruct H as (n & h & F & A & _); exfalso; apply N; now exists n, h.
Qed.

Lemma not_open n q : field n q -> exists c t, q = c :: t /\ c <> 123.
Proof.
  intros (N & v & f & r & -> & V & F). inversion N as [|c m C M|b m B M]; subst.
  - destruct V as [->|(d & ->)]; [|eexists _, _; split; [reflexivity|discriminate]]. destruct F as [->|(a & -> & _)]; eexists _, _; (split; [reflexivity|discriminate]).
  - eexists _, _; split; [reflexivity|]. cbn [In] in C. lia.
  - eexists _, _; split; [reflexivity|discriminate].
Qed.
Lemma format_asks p q : (exists n, field n q) -> format_rest (doubled p ++ 123 :: q) = Err (field_error q).
Proof.
  intros [n N]. destruct (not_open n q N) as (d & t & Q & D). induction p as [|c p IH].
  - cbn [doubled flat_map app format_rest]. change (123 =? 125) with false. change (123 =? 123) with true. cbn iota. rewrite Q. replace (d =? 123) with false by lia. reflexivity.
  - unfold doubled in *. cbn [flat_map]. rewrite <- app_assoc. destruct (Z.eq_dec c 123) as [->|N1]; [|destruct (Z.eq_dec c 125) as [->|N2]].
    + change ((123 =? 123) || (123 =? 125)) with true. cbn iota. cbn [app format_rest]. change (123 =? 125) with false. change (123 =? 123) with true. cbn iota. rewrite IH. reflexivity.
    + change ((125 =? 123) || (125 =? 125)) with true. cbn iota. cbn [app format_rest]. change (125 =? 125) with true. cbn iota. rewrite IH. reflexivity.
    + replace ((c =? 123) || (c =? 125)) with false by lia. cbn [app format_rest]. replace (c =? 125) with false by lia. replace (c =? 123) with false by lia. rewrite IH. reflexivity.
Qed.
Definition dbl (c : Z) : str := if (c =? 123) || (c =? 125) then [c; c] else [c].
Lemma doubled_cons c p : doubled (c :: p) = dbl c ++ doubled p.
Proof. reflexivity. Qed.
Lemma format_cases n : forall s, (List.length s <= n)%nat ->
  match format_rest s with
  | Ok r => s = doubled r
  | Err e => e = EValue \/ exists p q, s = doubled p ++ 123 :: q /\ e = field_error q
  end.
Proof.
  induction n as [|n IH]; intros [|c t] L; try reflexivity; [cbn [List.length] in L; lia|]. cbn [List.length] in L.
  assert (G : forall t' , (List.length t' <= n)%nat -> c :: t = dbl c ++ t' ->
    match rbind (format_rest t') (fun r => Ok (c :: r)) with Ok r => c :: t = doubled r | Err e => e = EValue \/ exists p q, c :: t = doubled p ++ 123 :: q /\ e = field_error q end).
  { intros t' L' E. specialize (IH t' L'). destruct (format_rest t') as [r|e]; cbn [rbind].
    - rewrite doubled_cons, <- IH. exact E.
    - destruct IH as [->|(p & q & -> & ->)]; [now left|]. right. exists (c :: p), q. rewrite doubled_cons, <- app_assoc. split; [exact E|reflexivity]. }
  cbn [format_rest]. destruct (c =? 125) eqn:C1.
  - apply Z.eqb_eq in C1. subst c. destruct t as [|d t]; [now left|]. destruct (d =? 125) eqn:D; [|now left]. apply Z.eqb_eq in D. subst d. apply G; [cbn [List.length] in L; lia|reflexivity].
  - destruct (c =? 123) eqn:C2.
    + apply Z.eqb_eq in C2. subst c. destruct t as [|d t]; [now left|]. destruct (d =? 123) eqn:D.
      * apply Z.eqb_eq in D. subst d. apply G; [cbn [List.length] in L; lia|reflexivity].
      * right. exists [], (d :: t). split; reflexivity.
    + apply G; [lia|]. unfold dbl. rewrite C1, C2. reflexivity.
Qed.

Lemma format_text s r : format_rest s = Ok r <-> s = doubled r.
Proof.
  split; [|intros ->; apply format_doubled]. intros H. pose proof (format_cases _ s (Nat.le_refl _)) as C. rewrite H in C. exact C.
Qed.
Lemma format_errors s e : format_rest s = Err e ->
  (e = EIndex <-> asks next_one s) /\ (e = EKey <-> asks named s) /\ (e = EIndex \/ e = EKey \/ e = EValue).
Proof.
  intros H. pose proof (format_cases _ s (Nat.le_refl _)) as C. rewrite H in C.
  assert (B : forall P, asks P s -> (forall q, (exists n h, field n q /\ argument h n /\ P h) -> field_error q = EIndex) -> e = EIndex).
  { intros P (p & q & n & h & -> & F & A & X) K. rewrite (format_asks p q (ex_intro _ n F)) in H. injection H as <-. apply K. exists n, h. auto. }
  assert (B' : forall P, asks P s -> (forall q, (exists n h, field n q /\ argument h n /\ P h) -> field_error q = EKey) -> e = EKey).
  { intros P (p & q & n & h & -> & F & A & X) K. rewrite (format_asks p q (ex_intro _ n F)) in H. injection H as <-. apply K. exists n, h. auto. }
  repeat split.
  - intros ->. destruct C as [C|(p & q & -> & E)]; [discriminate C|]. symmetry in E. apply error_field in E as (n & h & F & A & X). exists p, q, n, h. auto.
  - intros A. apply (B next_one A). intros q. apply error_field.
  - intros ->. destruct C as [C|(p & q & -> & E)]; [discriminate C|]. symmetry in E. apply (error_field q) in E as (n & h & F & A & X). exists p, q, n, h. auto.
  - intros A. apply (B' named A). intros q. apply (error_field q).
  - destruct C as [->|(p & q & -> & ->)]; [auto|]. apply error_field.
Qed.

(** Identifiers: the field for the argument comes first. *)
Lemma id_formatted pre s x : (forall c, In c pre -> c <> 123) -> id_format (pre ++ 123 :: 125 :: s) x = rbind (format_rest s) (fun r => Ok (pre ++ x ++ r)).
Proof.
  intros P. induction pre as [|c pre IH].
  - cbn [app id_format]. change (123 =? 123) with true. reflexivity.
  - cbn [app id_format]. specialize (P c (or_introl eq_refl)) as C. replace (c =? 123) with false by lia. rewrite IH by (intros d I; apply P; now right).
    destruct (format_rest s); reflexivity.
Qed.
Lemma id_named pre s x r : (forall c, In c pre -> c <> 123) -> id_format (pre ++ 123 :: 125 :: s) x = Ok r <-> exists t, s = doubled t /\ r = pre ++ x ++ t.
Proof.
  intros P. rewrite id_formatted by exact P. split.
  - intros H. apply rbind_ok in H as (t & H & E). apply format_text in H. exists t. split; [exact H|]. now injection E as <-.
  - intros (t & -> & ->). rewrite format_doubled. reflexivity.
Qed.
Lemma id_error pre s x e : (forall c, In c pre -> c <> 123) -> id_format (pre ++ 123 :: 125 :: s) x = Err e ->
  (e = EIndex <-> asks next_one s) /\ (e = EKey <-> asks named s) /\ (e = EIndex \/ e = EKey \/ e = EValue).
Proof.
  intros P. rewrite id_formatted by exact P. destruct (format_rest s) as [r|e'] eqn:F; cbn [rbind]; intros H; [discriminate H|]. injection H as <-. exact (format_errors s e' F).
Qed.
