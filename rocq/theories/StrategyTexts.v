(** What the texts and values of drawn events are. *)
From Coq Require Import String Lia ZifyBool ZifyNat.
From Verif Require Import Base BaseProofs PyValue PyValueProofs Json JsonProofs CogEnums VideoLayout GrainObj Event EventSpec BuildSpec BuildProofs BuildMain BuildKw
  GrainSet GrainSetSpec GrainCopy GrainCopySpec GrainCopyProofs GrainGsf PyValue GrainObj Tools Strategies StrategySpec StrategyProofs StrategyArgs StrategyDraw.
Local Open Scope list_scope.

Definition within (lo : nat) (hi : option nat) (n : nat) : Prop := (lo <= n)%nat /\ match hi with Some h => (n <= h)%nat | None => True end.
Lemma matches_piece cls lo hi r : forall s, matches ((cls, lo, hi) :: r) s = true <-> exists a b, s = a ++ b /\ Forall (fun c => cls c = true) a /\ within lo hi (List.length a) /\ matches r b = true.
Proof.
  intros s. revert lo hi. induction s as [|c s IH]; intros lo hi.
  - cbn [matches]. cbv beta iota. rewrite orb_false_r, andb_true_iff, Nat.eqb_eq. split.
    + intros [-> M]. exists [], []. repeat split; try constructor; try exact M. destruct hi; cbn [List.length]; [lia|trivial].
    + intros (a & b & E & _ & [W _] & M). symmetry in E. apply app_eq_nil in E as [-> ->]. cbn [List.length] in W. split; [lia|exact M].
  - change (matches ((cls, lo, hi) :: r) (c :: s)) with ((Nat.eqb lo 0 && matches r (c :: s)) || match hi with Some O => false | _ => cls c && matches ((cls, pred lo, option_map pred hi) :: r) s end).
    rewrite orb_true_iff, andb_true_iff, Nat.eqb_eq. split.
    + intros [[-> M]|H].
      * exists [], (c :: s). repeat split; try constructor; try exact M. destruct hi; cbn [List.length]; [lia|trivial].
      * assert (Q : hi <> Some O /\ cls c = true /\ matches ((cls, pred lo, option_map pred hi) :: r) s = true).
        { destruct hi as [[|h]|]; [discriminate H|..]; apply andb_true_iff in H as [H1 H2]; (split; [discriminate|split; assumption]). }
        destruct Q as (N & C & M). apply IH in M as (a & b & -> & F & [W1 W2] & M). exists (c :: a), b. split; [reflexivity|]. split; [constructor; assumption|]. split; [|exact M].
        split; cbn [List.length]; [lia|]. destruct hi as [h|]; [|trivial]. cbn [option_map] in W2. destruct h; [congruence|]. lia.
    + intros (a & b & E & F & [W1 W2] & M). destruct a as [|x a].
      * left. cbn [app] in E. subst b. cbn [List.length] in W1. split; [lia|exact M].
      * right. cbn [app] in E. injection E as <- ->. apply Forall_cons_iff in F as [C F]. cbn [List.length] in W1, W2.
        assert (R : matches ((cls, pred lo, option_map pred hi) :: r) (a ++ b) = true).
        { apply IH. exists a, b. split; [reflexivity|]. split; [exact F|]. split; [|exact M]. split; [lia|]. destruct hi as [h|]; [|trivial]. cbn [option_map]. lia. }
        destruct hi as [[|h]|]; [lia|..]; rewrite C; exact R.
Qed.
Lemma matches_end s : matches [] s = true <-> s = [] \/ s = [10].
Proof.
  cbn [matches]. destruct s as [|c [|c' s]].
  - split; [left; reflexivity|reflexivity].
  - rewrite Z.eqb_eq. split; [intros ->; right; reflexivity|intros [H|H]; [discriminate H|injection H as ->; reflexivity]].
  - split; [discriminate|intros [H|H]; discriminate H].
Qed.
Lemma matches_char z r s : matches (just_char z :: r) s = true <-> exists b, s = z :: b /\ matches r b = true.
Proof.
  unfold just_char. rewrite matches_piece. split.
  - intros (a & b & -> & F & [W1 W2] & M). destruct a as [|x [|? ?]]; cbn [List.length] in *; try lia. apply Forall_cons_iff in F as [E _]. apply Z.eqb_eq in E. subst x. exists b. split; [reflexivity|exact M].
  - intros (b & -> & M). exists [z], b. split; [reflexivity|]. split; [constructor; [apply Z.eqb_refl|constructor]|]. split; [split; cbn [List.length]; lia|exact M].
Qed.

Lemma type_iff s : matches type_regex s = true <-> is_urn s.
Proof.
  unfold type_regex. change (map just_char $"urn:") with [just_char 117; just_char 114; just_char 110; just_char 58]. cbn [app].
  unfold is_urn. split.
  - intros H. apply matches_char in H as (s1 & -> & H). apply matches_char in H as (s2 & -> & H). apply matches_char in H as (s3 & -> & H). apply matches_char in H as (s4 & -> & H).
    apply matches_piece in H as (a & b & -> & F1 & [W1 W2] & H). apply matches_piece in H as (nid & b' & -> & F2 & [_ W3] & H). apply matches_char in H as (b'' & -> & H).
    apply matches_piece in H as (rest & nl & -> & F3 & [W4 _] & H). apply matches_end in H. destruct a as [|x [|? ?]]; cbn [List.length] in *; try lia.
    exists x, nid, rest, nl. split; [reflexivity|]. apply Forall_cons_iff in F1 as [F1 _]. repeat split; try assumption. unfold zlen. lia. intros ->. cbn [List.length] in W4. lia.
  - intros (x & nid & rest & nl & -> & X & F2 & L & F3 & NE & H).
    apply matches_char. eexists. split; [reflexivity|]. apply matches_char. eexists. split; [reflexivity|]. apply matches_char. eexists. split; [reflexivity|]. apply matches_char. eexists. split; [reflexivity|].
    apply matches_piece. exists [x]. eexists. split; [reflexivity|]. split; [constructor; [exact X|constructor]|]. split; [split; cbn [List.length]; lia|].
    apply matches_piece. exists nid. eexists. split; [reflexivity|]. split; [exact F2|]. split; [split; [lia|unfold zlen in L; lia]|]. apply matches_char. eexists. split; [reflexivity|].
    apply matches_piece. exists rest, nl. split; [reflexivity|]. split; [exact F3|]. split; [split; [destruct rest; [congruence|cbn [List.length]; lia]|trivial]|]. apply matches_end. exact H.
Qed.
Lemma topic_iff s : matches topic_regex s = true <-> is_topic s.
Proof.
  unfold topic_regex, is_topic. split.
  - intros H. apply matches_piece in H as (a & b & -> & F1 & [W _] & H). apply matches_piece in H as (c & nl & -> & F2 & _ & H). apply matches_end in H. destruct a as [|x a]; [cbn [List.length] in W; lia|].
    exists x, (a ++ c), nl. split; [rewrite <- app_assoc; reflexivity|]. apply Forall_cons_iff in F1 as [X F1]. split; [exact X|]. split; [|exact H]. apply Forall_app. split; [|exact F2].
    apply (Forall_impl _ (fun c (Q : word c = true) => ltac:(cbv beta; rewrite Q; reflexivity) : (word c || (c =? 47)) = true) F1).
  - intros (x & c & nl & -> & X & F & H). apply matches_piece. exists [x], (c ++ nl). split; [reflexivity|]. split; [constructor; [exact X|constructor]|]. split; [split; [cbn [List.length]; lia|trivial]|].
    apply matches_piece. exists c, nl. split; [reflexivity|]. split; [exact F|]. split; [split; [lia|trivial]|]. apply matches_end. exact H.
Qed.
Lemma time_iff s : time_text s = true <-> is_time_text s.
Proof.
  unfold time_text, is_time_text. split.
  - destruct (rev s) as [|c q] eqn:R; [discriminate|]. intros H. apply andb_true_iff in H as [D H].
    apply matches_piece in H as (sign & b & -> & F1 & [_ W1] & H). apply matches_piece in H as (secs & b' & -> & F2 & [W2 _] & H). apply matches_char in H as (b'' & -> & H).
    apply matches_piece in H as (nanos & nl & -> & F3 & [W3 W4] & H). apply matches_end in H as [-> | ->].
    + exists sign, secs, nanos. rewrite app_nil_r. split; [reflexivity|]. split; [|split; [exact F2|split; [intros ->; cbn [List.length] in W2; lia|split; [exact F3|unfold zlen; lia]]]].
      destruct sign as [|x [|? ?]]; cbn [List.length] in W1; [left; reflexivity| |lia]. apply Forall_cons_iff in F1 as [X _]. apply Z.eqb_eq in X. subst x. right. reflexivity.
    + exfalso. rewrite !rev_app_distr in R. cbn [rev] in R. rewrite rev_app_distr in R. cbn [rev app] in R. injection R as <- _. discriminate D.
  - intros (sign & secs & nanos & -> & SG & F2 & NE & F3 & L). assert (NN : nanos <> []) by (intros ->; unfold zlen in L; cbn [List.length] in L; lia).
    destruct (exists_last NN) as (front & c & E). rewrite !rev_app_distr. cbn [rev]. rewrite E at 1. rewrite rev_app_distr. cbn [rev app].
    apply andb_true_iff. split; [rewrite E in F3; apply Forall_app in F3 as [_ F3]; apply Forall_cons_iff in F3 as [F3 _]; exact F3|].
    apply matches_piece. exists sign. eexists. split; [reflexivity|]. split; [destruct SG as [-> | ->]; repeat constructor|]. split; [split; [lia|destruct SG as [-> | ->]; cbn [List.length]; lia]|].
    apply matches_piece. exists secs. eexists. split; [reflexivity|]. split; [exact F2|]. split; [split; [destruct secs; [congruence|cbn [List.length]; lia]|trivial]|].
    apply matches_char. eexists. split; [reflexivity|]. apply matches_piece. exists nanos, []. rewrite app_nil_r. split; [reflexivity|]. split; [exact F3|]. split; [unfold zlen in L; split; lia|reflexivity].
Qed.
Lemma value_iff v : value_drawn v <-> some_value v.
Proof.
  unfold value_drawn, event_value, some_value. cbn [can_draw]. split.
  - intros [H|[H|[H|H]]].
    + destruct v; try (destruct H; fail). left. eauto.
    + destruct v; try (destruct H; fail). right; left. eauto.
    + destruct H as (n & d & F & ->). right; right; left. exists n, d. unfold is_frac in F. split; [reflexivity|]. lia.
    + destruct v; try (destruct H; fail). right; right; right. exists s. split; [reflexivity|]. apply time_iff. exact H.
  - intros [(z & ->)|[(b & ->)|[(n & d & -> & D & G)|(s & -> & T)]]].
    + left. reflexivity.
    + right; left. exact I.
    + right; right; left. exists n, d. split; [unfold is_frac; lia|reflexivity].
    + right; right; right. apply time_iff. exact T.
Qed.

(** ** Every event drawn has such texts and values, and all of them can be drawn. *)
Lemma entry_draws e : some_entry e -> exists x, e = entry_of x /\ can_draw entry_strat e /\ three e = Ok x.
Proof.
  intros (path & pre & post & -> & P & V & W). exists (PStr path, pre, post). apply value_iff in V, W. apply topic_iff in P.
  pose proof (value_not_none _ V) as P1. pose proof (value_not_none _ W) as Q1.
  split; [destruct pre; [destruct (P1 eq_refl)|..]; (destruct post; [destruct (Q1 eq_refl)|..]); reflexivity|]. split; [|reflexivity]. split; [reflexivity|]. split; [exact P|]. split; [reflexivity|]. split; [exact V|]. split; [reflexivity|]. split; [exact W|exact I].
Qed.
Lemma drawn_entry x : entry_drawn x -> some_entry (entry_of x).
Proof.
  destruct x as [[p pre] post]. intros ((path & -> & P) & V & W). exists path, pre, post. pose proof (value_not_none _ V) as P1. pose proof (value_not_none _ W) as Q1.
  split; [destruct pre; [destruct (P1 eq_refl)|..]; (destruct post; [destruct (Q1 eq_refl)|..]); reflexivity|]. split; [apply topic_iff, P|]. split; apply value_iff; assumption.
Qed.
Lemma event_shows now k kind topic es : event_of (kw_obj KEvent now k (event_part kind topic es) None None) kind topic es.
Proof. destruct k as [? ? ? ? ? [? ?] [? ?]]. repeat split; reflexivity. Qed.
Theorem events now kind topic es :
  (exists o, can_be $"event" [] now (Ok o) /\ event_of o kind topic es) <-> is_urn kind /\ is_topic topic /\ Forall some_entry es.
Proof.
  split.
  - intros (o & B & (_ & T & P & E)). destruct (event_draws now _ B) as (o' & Q & (k & kind' & topic' & xs & K & M1 & M2 & F & ->)). apply Ok_eq in Q. subst o.
    destruct (event_shows now k kind' topic' (map entry_of xs)) as (_ & T' & P' & E'). rewrite T in T'. rewrite P in P'. rewrite E in E'. apply Ok_eq in T', P', E'. injection T' as <-. injection P' as <-. subst es.
    split; [apply type_iff, M1|]. split; [apply topic_iff, M2|]. apply Forall_map. apply (Forall_impl _ drawn_entry F).
  - intros (M1 & M2 & F).
    assert (X : exists xs, map_res three es = Ok xs /\ map entry_of xs = es /\ Forall (can_draw entry_strat) es).
    { induction F as [|e es H F IH]; [exists []; repeat split; constructor|]. destruct IH as (xs & A & B & C). apply entry_draws in H as (x & -> & D & T). exists (x :: xs). cbn [map_res map]. rewrite T, A, B. cbn [rbind]. split; [reflexivity|]. split; [reflexivity|constructor; assumption]. }
    destruct X as (xs & A & B & C).
    exists (kw_obj KEvent now (mkKw (Some 1) (Some 2) (Some 3) (Some 4) (Some 5) (25, 1) (1, 25)) (event_part kind topic es) None None). split; [|apply event_shows].
    eexists. exists (common_drawn 1 2 3 4 5 ++ [($"rate", PFrac 25 1); ($"duration", PFrac 1 25); ($"event_type", PStr kind); ($"topic", PStr topic); ($"event_data", PList es)]). split; [exact event_strats|]. split.
    + unfold common_strats, common_drawn. cbn [app]. repeat (apply Forall2_cons; [split; [reflexivity|]|]); [| | | | | | | | | |apply Forall2_nil]; cbn [fst snd can_draw]; try reflexivity;
        [apply type_iff, M1|apply topic_iff, M2|split; [reflexivity|exact C]].
    + assert (E : build $"event" now (common_drawn 1 2 3 4 5 ++ [($"rate", PFrac 25 1); ($"duration", PFrac 1 25); ($"event_type", PStr kind); ($"topic", PStr topic); ($"event_data", PList es)]) =
        rbind (kw_event now (mkKw (Some 1) (Some 2) (Some 3) (Some 4) (Some 5) (25, 1) (1, 25)) kind topic ANone) (append_all es)) by reflexivity.
      rewrite E, event_shape. cbn [rbind]. rewrite append_all_shape, A. cbn [rbind app]. rewrite B. reflexivity.
Qed.

(** ** Rates and durations, if they are drawn. *)
Definition no_rates : list (str * sarg) := [($"rate", Unset); ($"duration", Unset)].
Lemma rates_from t : In t grain_types -> grains t no_rates = grains t [($"rate", From (SFracs (Some (0, 200)))); ($"duration", From (SFracs (Some (0, 200))))].
Proof. intros T. destruct (dest6 t T) as [->|[->|[->|[->|[->| ->]]]]]; vm_compute; reflexivity. Qed.
Theorem rates t now o n : In t grain_types -> can_be t no_rates now (Ok o) -> In n [$"rate"; $"duration"] ->
  exists a b v, getattr o n = Ok v /\ py_eq (PFrac a b) v = true /\ 0 < b /\ Z.gcd a b = 1 /\ 0 <= a <= 200 * b.
Proof.
  intros T (l & d & G & D & B) N. rewrite (rates_from t T) in G.
  assert (S : forall n, sensible n (From (SFracs (Some (0, 200)))) \/ n = $"cog_frame_layout").
  { intros m. destruct (zlist_eqb m $"cog_frame_layout") eqn:E; [right; apply zlist_eqb_eq; exact E|left]. split; [exists (PFrac 1 1); reflexivity|]. intros v H. cbn [wanted can_draw] in H. destruct v; try (destruct H; fail).
    unfold is_frac in H. split; [discriminate|]. split; [constructor; lia|]. intros ->. rewrite zlist_eqb_refl in E. discriminate E. }
  assert (H : honoured o n (From (SFracs (Some (0, 200))))).
  { destruct (S n) as [Q|Q]; [|subst n; cbn [In] in N; destruct N as [N|[N|[]]]; discriminate N].
    refine (arguments_honoured t _ now o n (From (SFracs (Some (0, 200)))) (ex_intro _ l (ex_intro _ d (conj G (conj D B)))) _ Q _ _).
    - cbn [In] in N. destruct N as [<-|[<-|[]]]; reflexivity.
    - cbn [In] in N. destruct N as [<-|[<-|[]]]; discriminate.
    - intros [_ E]. cbn [In] in N. destruct N as [<-|[<-|[]]]; discriminate E. }
  destruct H as (v & W & SV). cbn [wanted can_draw] in W. destruct v; try (destruct W; fail). unfold is_frac in W.
  unfold shows_value in SV. assert (E1 : zlist_eqb n $"unit_offsets" = false) by (cbn [In] in N; destruct N as [<-|[<-|[]]]; reflexivity). assert (E2 : zlist_eqb n $"event_data" = false) by (cbn [In] in N; destruct N as [<-|[<-|[]]]; reflexivity).
  rewrite E1, E2 in SV. destruct SV as (w & A & P). eexists _, _, w. split; [exact A|]. split; [exact P|]. lia.
Qed.
