From Coq Require Import String Lia ZifyBool ZifyNat.
From Verif Require Import Base BaseProofs PyValue PyValueProofs JsonProofs GrainObj ToolArgs ToolArgsSpec.
Local Open Scope list_scope.

(** ** Numerals. *)
Lemma more_app s : forall t a b, more_digits a s = Ok b -> more_digits a (s ++ t) = more_digits b t.
Proof.
  induction s as [s IH] using (well_founded_induction (Wf_nat.well_founded_ltof _ (@List.length Z))). unfold Wf_nat.ltof in IH. intros t a b. destruct s as [|c s]; [intros H; apply Ok_eq in H; subst; reflexivity|].
  cbn [List.app more_digits]. destruct (is_digit c); [apply IH; cbn [List.length]; lia|]. destruct (c =? 95); [|discriminate]. destruct s as [|d s]; [discriminate|]. cbn [List.app].
  destruct (is_digit d); [apply IH; cbn [List.length]; lia|discriminate].
Qed.
Lemma is_digit_iff c : is_digit c = true <-> digit c.
Proof. unfold is_digit, digit. lia. Qed.
Lemma more_one a c : digit c -> more_digits a [c] = Ok (10 * a + (c - 48)).
Proof. intros D. apply is_digit_iff in D. cbn [more_digits]. rewrite D. reflexivity. Qed.
Lemma more_two a c : digit c -> more_digits a [95; c] = Ok (10 * a + (c - 48)).
Proof. intros D. apply is_digit_iff in D. cbn [more_digits]. change (is_digit 95) with false. change (95 =? 95) with true. cbv iota. rewrite D. reflexivity. Qed.
Lemma natural_snoc s t n m : natural s = Ok n -> more_digits n t = Ok m -> natural (s ++ t) = Ok m.
Proof.
  destruct s as [|c s]; [discriminate|]. cbn [List.app natural]. destruct (is_digit c); [|discriminate]. intros H1 H2. rewrite (more_app s t _ _ H1). exact H2.
Qed.
Lemma more_numeral s : forall p a n, numeral p a -> more_digits a s = Ok n -> numeral (p ++ s) n.
Proof.
  induction s as [s IH] using (well_founded_induction (Wf_nat.well_founded_ltof _ (@List.length Z))). unfold Wf_nat.ltof in IH. intros p a n P. destruct s as [|c s].
  - intros H. apply Ok_eq in H. subst. rewrite app_nil_r. exact P.
  - cbn [more_digits]. destruct (is_digit c) eqn:D.
    + intros H. replace (p ++ c :: s) with ((p ++ [c]) ++ s) by (rewrite <- app_assoc; reflexivity). apply is_digit_iff in D. apply (IH s ltac:(cbn [List.length]; lia) _ _ _ (next_digit p a c P D) H).
    + destruct (c =? 95) eqn:U; [|discriminate]. assert (c = 95) by lia. subst c. destruct s as [|d s]; [discriminate|]. destruct (is_digit d) eqn:E; [|discriminate]. intros H.
      replace (p ++ 95 :: d :: s) with ((p ++ [95; d]) ++ s) by (rewrite <- app_assoc; reflexivity). apply is_digit_iff in E. apply (IH s ltac:(cbn [List.length]; lia) _ _ _ (under_digit p a d P E) H).
Qed.
Lemma natural_iff s n : natural s = Ok n <-> numeral s n.
Proof.
  split.
  - destruct s as [|c s]; [discriminate|]. cbn [natural]. destruct (is_digit c) eqn:D; [|discriminate]. intros H. apply is_digit_iff in D. exact (more_numeral s [c] _ n (first_digit c D) H).
  - induction 1 as [c D|s n c _ IH D|s n c _ IH D].
    + apply is_digit_iff in D. cbn [natural]. rewrite D. reflexivity.
    + exact (natural_snoc s [c] n _ IH (more_one n c D)).
    + exact (natural_snoc s [95; c] n _ IH (more_two n c D)).
Qed.
Lemma numeral_starts s n : numeral s n -> exists c t, s = c :: t /\ digit c.
Proof. induction 1 as [c D|s n c _ (x & t & -> & X) D|s n c _ (x & t & -> & X) D]; [exists c, []|eexists x, _|eexists x, _]; (split; [reflexivity|assumption]). Qed.
Lemma numeral_ends s n : numeral s n -> exists t c, s = t ++ [c] /\ digit c.
Proof. destruct 1 as [c D|s n c _ D|s n c _ D]; [exists [], c|exists s, c|exists (s ++ [95]), c]; (split; [|exact D]); [reflexivity|reflexivity|rewrite <- app_assoc; reflexivity]. Qed.
Lemma numeral_chars s n : numeral s n -> Forall (fun c => digit c \/ c = 95) s.
Proof. induction 1 as [c D|s n c _ IH D|s n c _ IH D]; [|apply Forall_app; split; [exact IH|]..]; repeat (constructor; auto). Qed.

(** ** White space. *)
Definition solid (s : str) : Prop := exists c t d, s = c :: t /\ is_space c = false /\ is_space d = false /\ exists u, s = u ++ [d].
Lemma lstrip_split s : exists a, blanks a /\ s = a ++ lstrip s.
Proof.
  induction s as [|c s (a & A & E)]; [exists []; split; [constructor|reflexivity]|]. cbn [lstrip]. destruct (is_space c) eqn:S; [|exists []; split; [constructor|reflexivity]].
  exists (c :: a). split; [constructor; [unfold is_space in S; lia|exact A]|]. cbn [List.app]. rewrite <- E. reflexivity.
Qed.
Lemma strip_split s : exists a b, blanks a /\ blanks b /\ s = a ++ strip s ++ b.
Proof.
  destruct (lstrip_split s) as (a & A & E). destruct (lstrip_split (rev (lstrip s))) as (b & B & F). exists a, (rev b). split; [exact A|]. split; [apply Forall_rev; exact B|].
  unfold strip. rewrite <- rev_app_distr, <- F, rev_involutive. exact E.
Qed.
Lemma lstrip_blanks a s : blanks a -> lstrip (a ++ s) = lstrip s.
Proof. induction 1 as [|c a C _ IH]; [reflexivity|]. cbn [List.app lstrip]. replace (is_space c) with true by (unfold is_space; lia). exact IH. Qed.
Lemma strip_solid a m b : blanks a -> solid m -> blanks b -> strip (a ++ m ++ b) = m.
Proof.
  intros A (c & t & d & E & C & D & u & F) B. unfold strip. rewrite (lstrip_blanks a _ A). assert (L : lstrip (m ++ b) = m ++ b) by (rewrite E; cbn [List.app lstrip]; rewrite C; reflexivity).
  rewrite L, rev_app_distr, (lstrip_blanks (rev b)) by (apply Forall_rev; exact B). rewrite F, rev_app_distr. cbn [rev List.app lstrip]. rewrite D. cbn [rev]. rewrite rev_involutive. reflexivity.
Qed.
Lemma strip_twice m : solid m -> strip m = m.
Proof. intros S. pose proof (strip_solid [] m [] (Forall_nil _) S (Forall_nil _)) as H. cbn [List.app] in H. rewrite app_nil_r in H. exact H. Qed.
Lemma digit_solid c : digit c -> is_space c = false.
Proof. unfold digit, is_space. lia. Qed.
Lemma signed_solid s n : signed s n -> solid s.
Proof.
  intros H. assert (X : forall s n, numeral s n -> solid s /\ solid (43 :: s) /\ solid (45 :: s)).
  { clear. intros s n N. destruct (numeral_starts s n N) as (c & t & E & C). destruct (numeral_ends s n N) as (u & d & F & D). apply digit_solid in C, D.
    split; [exists c, t, d; repeat split; trivial; exists u; exact F|]. split; [exists 43, s, d|exists 45, s, d]; (split; [reflexivity|]; split; [reflexivity|]; split; [exact D|]); [exists (43 :: u)|exists (45 :: u)]; rewrite F; reflexivity. }
  destruct H as [s n N|s n N|s n N]; apply (X s n N).
Qed.
Lemma int_unsigned s c t : strip s = c :: t -> c <> 43 -> c <> 45 -> int_of s = natural (c :: t).
Proof.
  intros E P M. unfold int_of. rewrite E. destruct c as [|p|p]; try reflexivity. repeat (destruct p as [p|p|]; try reflexivity; try lia).
Qed.
Lemma int_of_signed s n : signed s n -> int_of s = Ok n.
Proof.
  intros H. pose proof (strip_twice s (signed_solid s n H)) as T. destruct H as [s n N|s n N|s n N].
  - destruct (numeral_starts s n N) as (c & t & E & C). apply natural_iff in N. rewrite E in T at 2. rewrite (int_unsigned s c t T), <- E; [exact N|unfold digit in C; lia..].
  - apply natural_iff in N. unfold int_of. rewrite T. exact N.
  - apply natural_iff in N. unfold int_of. rewrite T, N. reflexivity.
Qed.
Lemma signed_of_int s n : int_of s = Ok n -> signed (strip s) n.
Proof.
  intros H. destruct (strip s) as [|c t] eqn:E; [unfold int_of in H; rewrite E in H; discriminate H|].
  destruct (Z.eq_dec c 43) as [->|N1]; [unfold int_of in H; rewrite E in H; apply natural_iff in H; apply plus_sign; exact H|].
  destruct (Z.eq_dec c 45) as [->|N2].
  - unfold int_of in H. rewrite E in H. apply rbind_ok in H as (m & F & H). apply Ok_eq in H. subst n. apply natural_iff in F. apply minus_sign. exact F.
  - rewrite (int_unsigned s c t E N1 N2) in H. apply no_sign, natural_iff. exact H.
Qed.

(** ** Sizes. *)
Lemma split_none s : ~ In 120 s -> split_x s = [s].
Proof.
  induction s as [|c s IH]; [reflexivity|]. cbn [In split_x]. intros H. replace (c =? 120) with false by (destruct (Z.eq_dec c 120); [destruct H; auto|lia]). rewrite IH by tauto. reflexivity.
Qed.
Lemma split_one a b : ~ In 120 a -> split_x (a ++ 120 :: b) = a :: split_x b.
Proof.
  induction a as [|c a IH]; [reflexivity|]. cbn [In List.app split_x]. intros H. replace (c =? 120) with false by (destruct (Z.eq_dec c 120); [destruct H; auto|lia]). rewrite IH by tauto. reflexivity.
Qed.
Fixpoint joined_x (l : list str) : str := match l with [] => [] | [p] => p | p :: l => p ++ 120 :: joined_x l end.
Lemma split_joined s : joined_x (split_x s) = s /\ split_x s <> [].
Proof.
  induction s as [|c s [IH N]]; [split; [reflexivity|discriminate]|]. cbn [split_x]. destruct (c =? 120) eqn:E.
  - assert (c = 120) by lia. subst c. split; [|discriminate]. cbn [joined_x]. destruct (split_x s) as [|p l]; [destruct N; reflexivity|]. cbn [List.app]. rewrite <- IH. reflexivity.
  - destruct (split_x s) as [|p l]; [destruct N; reflexivity|]. split; [|discriminate]. destruct l; cbn [joined_x List.app] in *; rewrite <- IH; reflexivity.
Qed.
Lemma signed_no_x s n : signed s n -> ~ In 120 s.
Proof.
  assert (X : forall s n, numeral s n -> ~ In 120 s). { intros t m N I. apply numeral_chars in N. rewrite Forall_forall in N. specialize (N 120 I). unfold digit in N. lia. }
  destruct 1 as [s n N|s n N|s n N]; cbn [In]; [exact (X s n N)|intros [E|I]; [discriminate E|exact (X s n N I)]..].
Qed.
Lemma blanks_no_x s : blanks s -> ~ In 120 s.
Proof. intros B I. unfold blanks in B. rewrite Forall_forall in B. specialize (B 120 I). lia. Qed.
Lemma padded_no_x a s n b : blanks a -> signed s n -> blanks b -> ~ In 120 (a ++ s ++ b).
Proof. intros A N B I. apply in_app_or in I as [I|I]; [exact (blanks_no_x a A I)|]. apply in_app_or in I as [I|I]; [exact (signed_no_x s n N I)|exact (blanks_no_x b B I)]. Qed.
Lemma padded_int a s n b : blanks a -> signed s n -> blanks b -> int_of (strip (a ++ s ++ b)) = Ok n.
Proof. intros A N B. rewrite (strip_solid a s b A (signed_solid s n N) B). exact (int_of_signed s n N). Qed.
Lemma int_padded s n : int_of (strip s) = Ok n -> exists a m b, blanks a /\ signed m n /\ blanks b /\ s = a ++ m ++ b.
Proof.
  intros H. apply signed_of_int in H. destruct (strip_split s) as (a & b & A & B & E). destruct (strip_split (strip s)) as (a' & b' & A' & B' & F). exists (a ++ a'), (strip (strip s)), (b' ++ b).
  split; [apply Forall_app; split; assumption|]. split; [exact H|]. split; [apply Forall_app; split; assumption|]. rewrite E at 1. rewrite F at 1. rewrite <- !app_assoc. reflexivity.
Qed.
Theorem size_parsed s w h : size_text s w h -> parse_size s = Ok (w, h).
Proof.
  intros (a & b & c & d & dw & dh & A & B & C & D & W & H & ->). unfold parse_size. replace (a ++ dw ++ b ++ 120 :: c ++ dh ++ d) with ((a ++ dw ++ b) ++ 120 :: (c ++ dh ++ d)) by (rewrite <- !app_assoc; reflexivity).
  rewrite split_one by exact (padded_no_x a dw w b A W B). rewrite split_none by exact (padded_no_x c dh h d C H D). cbn [map_res]. rewrite (padded_int a dw w b A W B), (padded_int c dh h d C H D). reflexivity.
Qed.
Theorem size_parsed_only s w h : parse_size s = Ok (w, h) -> size_text s w h.
Proof.
  unfold parse_size. intros P. apply rbind_ok in P as (l & M & P). destruct (split_joined s) as [J _]. destruct (split_x s) as [|p [|q [|r ps]]]; cbn [map_res] in M.
  - apply Ok_eq in M. subst l. discriminate P.
  - apply rbind_ok in M as (x & _ & M). cbn [rbind] in M. apply Ok_eq in M. subst l. discriminate P.
  - apply rbind_ok in M as (x & X & M). apply rbind_ok in M as (ys & M' & M). apply rbind_ok in M' as (y & Y & M'). cbn [rbind] in M'. apply Ok_eq in M'. subst ys. apply Ok_eq in M. subst l.
    assert (x = w /\ y = h) as [-> ->] by (split; congruence). apply int_padded in X as (a & m & b & A & N & B & ->). apply int_padded in Y as (c & m' & d & C & N' & D & ->). cbn [joined_x] in J.
    exists a, b, c, d, m, m'. split; [exact A|]. split; [exact B|]. split; [exact C|]. split; [exact D|]. split; [exact N|]. split; [exact N'|]. rewrite <- J, <- !app_assoc. reflexivity.
  - apply rbind_ok in M as (x & X & M). apply rbind_ok in M as (ys & M' & M). apply rbind_ok in M' as (y & Y & M'). apply rbind_ok in M' as (zs & Z & M'). apply rbind_ok in Z as (z & _ & Z).
    apply rbind_ok in Z as (zs' & _ & Z). apply Ok_eq in Z. subst zs. apply Ok_eq in M'. subst ys. apply Ok_eq in M. subst l. discriminate P.
Qed.
Lemma more_error s : forall n e, more_digits n s = Err e -> e = EValue.
Proof.
  induction s as [s IH] using (well_founded_induction (Wf_nat.well_founded_ltof _ (@List.length Z))). unfold Wf_nat.ltof in IH. intros n e. destruct s as [|c s]; [discriminate|]. cbn [more_digits].
  destruct (is_digit c); [apply IH; cbn [List.length]; lia|]. destruct (c =? 95); [|congruence]. destruct s as [|d s]; [congruence|]. destruct (is_digit d); [apply IH; cbn [List.length]; lia|congruence].
Qed.
Lemma natural_error s e : natural s = Err e -> e = EValue.
Proof. destruct s as [|c s]; cbn [natural]; [congruence|]. destruct (is_digit c); [apply more_error|congruence]. Qed.
Lemma negated_error s e : rbind (natural s) (fun n => Ok (- n)) = Err e -> e = EValue.
Proof. destruct (natural s) eqn:E; cbn [rbind]; [discriminate|]. pose proof (natural_error _ _ E). congruence. Qed.
Lemma int_error s e : int_of s = Err e -> e = EValue.
Proof.
  unfold int_of. destruct (strip s) as [|c t]; [intros H; exact (natural_error _ _ H)|]. intros H.
  destruct c as [|p|p]; try exact (natural_error _ _ H). repeat (destruct p as [p|p|]; try exact (natural_error _ _ H); try exact (negated_error _ _ H)).
Qed.
Lemma ints_error l e : map_res (fun x => int_of (strip x)) l = Err e -> e = EValue.
Proof.
  induction l as [|x l IH]; cbn [map_res]; [discriminate|]. destruct (int_of (strip x)) eqn:E; cbn [rbind]; [|intros H; pose proof (int_error _ _ E); congruence].
  destruct (map_res _ l) eqn:M; cbn [rbind]; [discriminate|]. intros H. apply IH. congruence.
Qed.
Theorem size_refused s : (forall w h, ~ size_text s w h) -> parse_size s = Err EValue.
Proof.
  intros N. destruct (parse_size s) as [[w h]|e] eqn:E; [destruct (N w h (size_parsed_only s w h E))|]. f_equal. unfold parse_size in E.
  destruct (map_res _ (split_x s)) as [l|x] eqn:M; cbn [rbind] in E; [|pose proof (ints_error _ _ M); congruence]. destruct l as [|? [|? [|? ?]]]; congruence.
Qed.
Theorem size_iff s w h : parse_size s = Ok (w, h) <-> size_text s w h.
Proof. split; [exact (size_parsed_only s w h)|exact (size_parsed s w h)]. Qed.
