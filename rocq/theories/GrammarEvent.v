(** JSON texts as payloads of event grains. *)
From Coq Require Import String Lia.
From Verif Require Import Base BaseProofs PyValue PyValueProofs ListSpec Json JsonProofs JsonFuel Utf8 Utf8Proofs GrainObj Event EventSpec EventProofs EventMain GrammarSpec GrammarProofs GrammarMain.
Local Open Scope list_scope.

Theorem dumps_text v t : json_ok v -> dumps v = Ok t -> json_text t v.
Proof. intros K E. destruct (loads_dumps v K) as (t' & E' & L). rewrite E in E'. apply Ok_eq in E'. subst t'. apply loads_sound, L. Qed.

(** The entries of a text are determined. *)
Definition alike (e e' : entry) : Prop := forall k, e k = e' k.
Lemma entry_one v e e' : json_entry v e -> json_entry v e' -> alike e e'.
Proof. intros (d & -> & _ & H) (d' & E & _ & H') k. injection E. intros <-. rewrite H, H'. reflexivity. Qed.
Lemma entry_bad v e x : json_entry v e -> bad_entry v x -> False.
Proof. intros (d & -> & N & _) [B _]. contradiction. Qed.
Lemma bad_one v x y : bad_entry v x -> bad_entry v y -> x = y.
Proof. destruct v; cbn [bad_entry]; try congruence. intros [_ ->] [_ ->]. reflexivity. Qed.
Definition tail_is (x : option err) (rest : list pv) : Prop := match x with None => rest = [] | Some e => exists w ws, rest = w :: ws /\ bad_entry w e end.
Lemma split_one good : forall l good' l' x x' rest rest', good ++ rest = good' ++ rest' -> Forall2 json_entry good l -> Forall2 json_entry good' l' -> tail_is x rest -> tail_is x' rest' ->
  x = x' /\ Forall2 alike l l'.
Proof.
  induction good as [|v good IH]; intros l good' l' x x' rest rest' E F F' T T'; inversion F; subst; clear F.
  - destruct good' as [|v' good']; inversion F'; subst; clear F'.
    + cbn [List.app] in E. subst rest'. split; [|constructor]. destruct x as [e|], x' as [e'|]; cbn [tail_is] in T, T'; try reflexivity.
      * destruct T as (w & ws & -> & B), T' as (w' & ws' & E & B'). injection E. intros _ <-. f_equal. exact (bad_one _ _ _ B B').
      * destruct T as (w & ws & -> & B). discriminate T'.
      * destruct T' as (w & ws & -> & B). discriminate T.
    + exfalso. cbn [List.app] in E. subst rest. destruct x as [e|]; cbn [tail_is] in T; [|discriminate T]. destruct T as (w & ws & Ew & B). injection Ew. intros _ <-. eapply entry_bad; eassumption.
  - destruct good' as [|v' good']; inversion F'; subst; clear F'.
    + exfalso. cbn [List.app] in E. subst rest'. destruct x' as [e|]; cbn [tail_is] in T'; [|discriminate T']. destruct T' as (w & ws & Ew & B). injection Ew. intros _ <-. eapply entry_bad; eassumption.
    + cbn [List.app] in E. injection E. intros E2 <-. destruct (IH _ _ _ x x' _ _ E2 ltac:(eassumption) ltac:(eassumption) T T') as [-> A]. split; [reflexivity|]. constructor; [|exact A]. eapply entry_one; eassumption.
Qed.
Lemma json_entries_one v l l' x x' : json_entries v l x -> json_entries v l' x' -> x = x' /\ Forall2 alike l l'.
Proof.
  assert (K : forall (a b : list entry) (y z w : option err), a = [] /\ y = w -> b = [] /\ z = w -> y = z /\ Forall2 alike a b).
  { intros a b y z w [-> ->] [-> ->]. split; [reflexivity|constructor]. }
  destruct v as [|b|z|n d|[|c s]|u|u|t|t|vs|[|kv d]]; cbn [json_entries]; try apply K.
  intros (g & r & -> & F & T) (g' & r' & E & F' & T'). exact (split_one g l g' l' x x' r r' E F F' T T').
Qed.
Lemma shows_alike o t tp es es' : Forall2 alike es es' -> shows o (mkP t tp es) -> shows o (mkP t tp es').
Proof.
  intros A (g & d & l & H1 & H2 & H3 & H4 & H5 & H6). exists g, d, l. repeat (split; [assumption|]). cbn [p_entries] in *. clear - A H6. revert es' A.
  induction H6 as [|v e l es (dd & -> & N & G) F IH]; intros es' A; inversion A; subst; constructor; [|apply IH; assumption]. exists dd. split; [reflexivity|]. split; [exact N|].
  intros k. rewrite G. match goal with H : alike _ _ |- _ => apply H end.
Qed.
Lemma sets b o p : shows o p -> exists p' x o', apply_op (SetData b) o = (o', x) /\ takes b p p' x /\ shows o' p' /\ same_but_payload o o'.
Proof.
  intros S. destruct (op_does (SetData b) o p I S) as (p' & x & o' & E & D & S2 & Q).
  assert (T : takes b p p' x) by (inversion D; subst; [assumption|match goal with K : on_entry _ _ _ _ _ |- _ => inversion K end|discriminate]).
  exists p', x, o'. auto.
Qed.
Theorem payload_read s d t tp l es x o p : str_ok s -> json_text s (PDict d) -> dget $"type" d = Some t -> dget $"topic" d = Some tp -> dget $"data" d = Some l -> json_entries l es x -> shows o p ->
  exists o', apply_op (SetData (utf8_enc s)) o = (o', x) /\ shows o' (mkP t tp es) /\ same_but_payload o o'.
Proof.
  intros K J A B C D S. apply loads_complete in J. pose proof (utf8_roundtrip s K) as U. destruct (sets (utf8_enc s) o p S) as (p' & x' & o' & E & T & S2 & Q). exists o'.
  inversion T as [H1|s0 e H1 H2|s0 v e H1 H2 H3 H4|s0 d' t' tp' l' es' x0 H1 H2 H3 H4 H5 H6]; subst; rewrite U in H1; try discriminate H1; injection H1; intros <-; rewrite J in H2; try discriminate H2; apply Ok_eq in H2.
  - exfalso. subst v. exact (H4 d t tp l eq_refl A B C).
  - assert (d' = d) by (injection H2; auto). subst d'. clear H2.
    assert (t' = t) by (rewrite A in H3; injection H3; auto). assert (tp' = tp) by (rewrite B in H4; injection H4; auto). assert (l' = l) by (rewrite C in H5; injection H5; auto). subst.
    destruct (json_entries_one l es' es x' x H6 D) as [-> Z]. split; [exact E|]. split; [exact (shows_alike _ _ _ _ _ Z S2)|exact Q].
Qed.
Theorem payload_refused s o p : str_ok s -> (forall v, ~ json_text s v) -> shows o p ->
  exists o', apply_op (SetData (utf8_enc s)) o = (o', Some EValue) /\ shows o' p /\ same_but_payload o o'.
Proof.
  intros K N S. apply loads_other in N. pose proof (utf8_roundtrip s K) as U. destruct (sets (utf8_enc s) o p S) as (p' & x' & o' & E & T & S2 & Q). exists o'.
  inversion T as [H1|s0 e H1 H2|s0 v e H1 H2 H3 H4|s0 d' t' tp' l' es' x0 H1 H2 H3 H4 H5 H6]; subst; rewrite U in H1; try discriminate H1; injection H1; intros <-; rewrite N in H2; try discriminate H2.
  injection H2. intros <-. auto.
Qed.
