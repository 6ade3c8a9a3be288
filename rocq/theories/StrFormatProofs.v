From Coq Require Import String Lia ZifyBool ZifyNat.
From Verif Require Import Base BaseProofs PyValue Json JsonProofs GrainObj StrFormat Compare CompareSpec.
Local Open Scope list_scope.
Ltac Zify.zify_post_hook ::= Z.div_mod_to_equations.

(** Formatting the rest of an identifier goes through exactly if its braces are doubled. *)
Lemma rest_spelled s : spelled s -> exists r, format_rest s = Ok r.
Proof.
  induction 1 as [|c s N1 N2 _ [r IH]|s _ [r IH]|s _ [r IH]].
  - exists []. reflexivity.
  - exists (c :: r). cbn [format_rest]. replace (c =? 125) with false by lia. replace (c =? 123) with false by lia. rewrite IH. reflexivity.
  - exists (123 :: r). cbn [format_rest]. change (123 =? 125) with false. change (123 =? 123) with true. cbn iota. rewrite IH. reflexivity.
  - exists (125 :: r). cbn [format_rest]. change (125 =? 125) with true. cbn iota. rewrite IH. reflexivity.
Qed.
Lemma rest_ok n : forall s r, (List.length s <= n)%nat -> format_rest s = Ok r -> spelled s.
Proof.
  induction n as [|n IH]; intros [|c t] r L H; try exact sp_end; [cbn in L; lia|].
  cbn [List.length] in L. cbn [format_rest] in H. destruct (c =? 125) eqn:E1.
  - apply Z.eqb_eq in E1. subst c. destruct t as [|d t]; [discriminate H|]. destruct (d =? 125) eqn:E2; [|discriminate H]. apply Z.eqb_eq in E2. subst d.
    apply rbind_ok in H as (q & H & _). apply sp_close. apply (IH t q); [cbn [List.length] in L; lia|exact H].
  - destruct (c =? 123) eqn:E2.
    + apply Z.eqb_eq in E2. subst c. destruct t as [|d t]; [discriminate H|]. destruct (d =? 123) eqn:E3; [|discriminate H]. apply Z.eqb_eq in E3. subst d.
      apply rbind_ok in H as (q & H & _). apply sp_open. apply (IH t q); [cbn [List.length] in L; lia|exact H].
    + apply rbind_ok in H as (q & H & _). apply sp_plain; [lia|lia|]. apply (IH t q); [lia|exact H].
Qed.

Definition no_brace (s : str) : Prop := Forall (fun c => c <> 123 /\ c <> 125) s.
Lemma spelled_plain s : no_brace s -> spelled s.
Proof. induction 1 as [|c s [A B] _ IH]; constructor; auto. Qed.
Lemma spelled_after p s : no_brace p -> spelled (p ++ s) <-> spelled s.
Proof.
  intros P. induction P as [|c p [A B] _ IH]; [tauto|]. cbn [app]. rewrite <- IH. split; [|intros H; constructor; auto].
  intros H. inversion H; subst; [assumption|congruence|congruence].
Qed.
Lemma spelled_before s q : no_brace q -> spelled (s ++ q) <-> spelled s.
Proof.
  intros Q. split.
  - intros H. remember (s ++ q) as t eqn:E. revert s E. induction H as [|c t A B H IH|t H IH|t H IH]; intros s E.
    + symmetry in E. apply app_eq_nil in E as [-> _]. constructor.
    + destruct s as [|d s]; [constructor|]. cbn [app] in E. injection E as <- E. constructor; auto.
    + destruct s as [|c [|d s]]; [constructor| |].
      * cbn [app] in E. injection E as <- E. rewrite <- E in Q. inversion Q as [|? ? [F _] _]. lia.
      * cbn [app] in E. injection E as <- <- E. apply sp_open; auto.
    + destruct s as [|c [|d s]]; [constructor| |].
      * cbn [app] in E. injection E as <- E. rewrite <- E in Q. inversion Q as [|? ? [_ F] _]. lia.
      * cbn [app] in E. injection E as <- <- E. apply sp_close; auto.
  - induction 1; cbn [app]; [apply spelled_plain, Q|apply sp_plain; auto|apply sp_open; auto|apply sp_close; auto].
Qed.
Lemma spelled_map f k : (forall c, c = 123 \/ c = 125 -> f c = [c]) -> (forall c, c <> 123 -> c <> 125 -> no_brace (f c) /\ f c <> []) ->
  spelled (flat_map f k) <-> spelled k.
Proof.
  intros B P. split.
  - assert (G : forall n k, (List.length k <= n)%nat -> spelled (flat_map f k) -> spelled k).
    2: { intros H. apply (G (List.length k)); auto. }
    clear k. induction n as [|n IH]; intros [|c k] L H; try exact sp_end; [cbn in L; lia|]. cbn [List.length] in L. cbn [flat_map] in H.
    destruct (Z.eq_dec c 123) as [->|N1]; [|destruct (Z.eq_dec c 125) as [->|N2]].
    + rewrite (B 123) in H by auto. cbn [app] in H. destruct k as [|d k]; [cbn [flat_map] in H; inversion H; congruence|]. cbn [flat_map] in H.
      destruct (Z.eq_dec d 123) as [->|M1]; [|destruct (Z.eq_dec d 125) as [->|M2]].
      * rewrite (B 123) in H by auto. cbn [app] in H. apply sp_open. apply IH; [cbn [List.length] in L; lia|]. inversion H; subst; [congruence|assumption].
      * rewrite (B 125) in H by auto. cbn [app] in H. inversion H; congruence.
      * destruct (P d M1 M2) as [Q R]. destruct (f d) as [|x l]; [congruence|]. inversion Q as [|? ? [F1 F2] _]. cbn [app] in H. inversion H; congruence.
    + rewrite (B 125) in H by auto. cbn [app] in H. destruct k as [|d k]; [cbn [flat_map] in H; inversion H; congruence|]. cbn [flat_map] in H.
      destruct (Z.eq_dec d 123) as [->|M1]; [|destruct (Z.eq_dec d 125) as [->|M2]].
      * rewrite (B 123) in H by auto. cbn [app] in H. inversion H; congruence.
      * rewrite (B 125) in H by auto. cbn [app] in H. apply sp_close. apply IH; [cbn [List.length] in L; lia|]. inversion H; subst; [congruence|assumption].
      * destruct (P d M1 M2) as [Q R]. destruct (f d) as [|x l]; [congruence|]. inversion Q as [|? ? [F1 F2] _]. cbn [app] in H. inversion H; congruence.
    + apply sp_plain; auto. apply IH; [lia|]. apply (spelled_after (f c)); [apply P; auto|exact H].
  - induction 1 as [|c s N1 N2 _ IH|s _ IH|s _ IH]; cbn [flat_map]; [constructor| | |].
    + apply spelled_after; [apply P; auto|exact IH].
    + rewrite (B 123) by auto. apply sp_open, IH.
    + rewrite (B 125) by auto. apply sp_close, IH.
Qed.
Lemma hex_plain d : d <= 15 -> hex_digit d <> 123 /\ hex_digit d <> 125.
Proof. intros H. unfold hex_digit. destruct (d <? 10) eqn:E; lia. Qed.
Lemma repr_char_plain q c : q <> 123 -> q <> 125 -> c <> 123 -> c <> 125 -> no_brace (repr_char q c) /\ repr_char q c <> [].
Proof.
  intros Q1 Q2 N1 N2. unfold repr_char.
  destruct ((c =? 92) || (c =? q)); [split; [repeat (constructor; [lia|]); constructor|discriminate]|].
  destruct (c =? 10); [split; [repeat (constructor; [lia|]); constructor|discriminate]|].
  destruct (c =? 13); [split; [repeat (constructor; [lia|]); constructor|discriminate]|].
  destruct (c =? 9); [split; [repeat (constructor; [lia|]); constructor|discriminate]|].
  destruct ((c <? 32) || ((127 <=? c) && (c <? 161))) eqn:E.
  - split; [|discriminate]. constructor; [lia|]. constructor; [lia|]. constructor; [apply hex_plain; lia|]. constructor; [apply hex_plain; lia|]. constructor.
  - split; [|discriminate]. constructor; [lia|]. constructor.
Qed.
Lemma repr_char_brace q c : q = 34 \/ q = 39 -> c = 123 \/ c = 125 -> repr_char q c = [c].
Proof. intros [-> | ->] [-> | ->]; reflexivity. Qed.
Lemma repr_spelled k : spelled (repr k) <-> spelled k.
Proof.
  unfold repr. set (q := if _ : bool then 34 else 39). assert (Q : q = 34 \/ q = 39) by (unfold q; destruct (_ && _); auto). clearbody q.
  assert (N : q <> 123 /\ q <> 125) by lia. change (q :: flat_map (repr_char q) k ++ [q]) with ([q] ++ (flat_map (repr_char q) k ++ [q])).
  rewrite spelled_after by (constructor; [exact N|constructor]). rewrite spelled_before by (constructor; [exact N|constructor]).
  apply spelled_map; [intros c; apply repr_char_brace, Q|intros c; apply repr_char_plain; apply N].
Qed.
Lemma digits_plain u : no_brace (digits u).
Proof. induction u; cbn [digits]; constructor; try lia; auto. Qed.
Lemma int_plain n : no_brace (int_text n).
Proof. unfold int_text. destruct (Z.to_int n) as [u|u]; [apply digits_plain|constructor; [lia|apply digits_plain]]. Qed.

(** The identifiers of the attributes, of elements and of what is at a key of one. *)
Lemma no_brace_app a b : no_brace a -> no_brace b -> no_brace (a ++ b).
Proof. intros A B. apply Forall_app. auto. Qed.
Lemma plain_text s : forallb (fun c => negb (c =? 123) && negb (c =? 125)) s = true -> no_brace s.
Proof. intros H. apply Forall_forall. intros c C. apply (proj1 (forallb_forall _ s) H) in C. lia. Qed.
Lemma key_format n i k x : no_brace n -> (exists t, id_format (at_key (at_index (path n) i) k) x = Ok t) <-> spelled k.
Proof.
  intros N. unfold at_key, at_index, path. set (p := $"." ++ n ++ $"[" ++ int_text i ++ $"]" ++ $"[").
  replace ((($"{}." ++ n) ++ $"[" ++ int_text i ++ $"]") ++ $"[" ++ repr k ++ $"]") with (123 :: 125 :: (p ++ (repr k ++ $"]"))).
  2: { unfold p. rewrite <- !app_assoc. reflexivity. }
  assert (P : no_brace p).
  { unfold p. repeat apply no_brace_app; try exact N; try apply int_plain; apply plain_text; reflexivity. }
  cbn [id_format]. change (123 =? 123) with true. cbn iota. clearbody p.
  assert (S : spelled (p ++ repr k ++ $"]") <-> spelled k).
  { rewrite spelled_after by exact P. rewrite spelled_before; [apply repr_spelled|]. apply plain_text; reflexivity. }
  split.
  - intros (t & H). apply rbind_ok in H as (r & H & _). apply S. apply (rest_ok _ _ r (Nat.le_refl _) H).
  - intros H. apply S in H. apply rest_spelled in H as [r ->]. eexists. reflexivity.
Qed.
