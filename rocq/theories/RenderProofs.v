(** The texts of a comparison: proofs. *)
From Coq Require Import String Lia ZifyBool ZifyNat.
From Verif Require Import Base BaseProofs PyValue GrainObj Compare Render RenderSpec.
Local Open Scope list_scope.

Lemma cres_deep (P : cres -> Prop) : (forall i a k o e l, Forall P l -> P (CR i a k o e l)) -> forall r, P r.
Proof.
  intros H. fix F 1. intros [i a k o e l]. apply H. induction l as [|c l IH]; constructor; [apply F|exact IH].
Qed.

(** ** The message. *)
Lemma within_refl s : within s s.
Proof. exists [], []. rewrite app_nil_r. reflexivity. Qed.
Lemma within_trans a b c : within a b -> within b c -> within a c.
Proof. intros (p & q & ->) (p' & q' & ->). exists (p' ++ p), (q ++ q'). rewrite <- !app_assoc. reflexivity. Qed.
Lemma within_mid p s q : within s (p ++ s ++ q).
Proof. exists p, q. reflexivity. Qed.
Lemma within_joined sep l x : In x l -> within x (joined sep l).
Proof.
  induction l as [|y l IH]; [intros []|]. intros [->|H].
  - destruct l as [|z l]; [apply within_refl|]. exists [], (sep ++ joined sep (z :: l)). reflexivity.
  - destruct l as [|z l]; [destruct H|]. apply (within_trans _ _ _ (IH H)). exists (y ++ sep), []. rewrite app_nil_r, <- app_assoc. reflexivity.
Qed.
(** The messages of the failed children, as they are put into the message. *)
Definition shout (own : cres -> str) (c : cres) : str := if excluded c then $"<IGNORING: " ++ msg own c ++ $">" else $"(" ++ msg own c ++ $")".
Lemma msg_child own r c : In c (r_children r) -> r_equal c = false -> within (shout own c) (msg own r).
Proof.
  intros H E. destruct r as [i a k o e l]. cbn [r_children] in H. cbn [msg].
  set (A := flat_map _ l ++ _). assert (I : In (shout own c) A).
  { unfold A, shout. apply in_app_iff. destruct (excluded c) eqn:X; [right|left]; apply in_flat_map; exists c; (split; [exact H|]); rewrite E, X; left; reflexivity. }
  clearbody A. destruct A as [|x A]; [destruct I|]. apply (within_trans _ _ _ (within_joined $"; " _ _ I)). exists (own (CR i a k o e l) ++ $": "), []. rewrite app_nil_r, <- app_assoc. reflexivity.
Qed.
Lemma shout_in own c : within (msg own c) (shout own c).
Proof. unfold shout. destruct (excluded c); apply within_mid. Qed.
Lemma msg_own own r : exists q, msg own r = own r ++ q.
Proof.
  destruct r as [i a k o e l]. cbn [msg]. destruct (flat_map _ l ++ _) as [|x A]; [exists []; rewrite app_nil_r; reflexivity|eexists; reflexivity].
Qed.
Theorem msg_mentions own r d : mentioned r d -> within (own d) (msg own r).
Proof.
  induction 1 as [r|r c d H E _ IH].
  - destruct (msg_own own r) as [q ->]. exists [], q. reflexivity.
  - apply (within_trans _ _ _ IH). apply (within_trans _ _ _ (shout_in own c)). exact (msg_child own r c H E).
Qed.
Lemma flat_map_eq {A B} (f g : A -> list B) l : (forall x, In x l -> f x = g x) -> flat_map f l = flat_map g l.
Proof. induction l as [|x l IH]; intros H; [reflexivity|]. cbn [flat_map]. rewrite (H x (or_introl eq_refl)), IH; [reflexivity|]. intros y Hy. apply H. right; exact Hy. Qed.
Theorem msg_only own own' : forall r, (forall d, mentioned r d -> own d = own' d) -> msg own r = msg own' r.
Proof.
  apply (cres_deep (fun r => (forall d, mentioned r d -> own d = own' d) -> msg own r = msg own' r)). intros i a k o e l IH H. cbn [msg].
  rewrite (H _ (men_self _)). rewrite Forall_forall in IH.
  assert (C : forall c, In c l -> r_equal c = false -> msg own c = msg own' c).
  { intros c Hc E. apply (IH c Hc). intros d Hd. apply H. exact (men_child (CR i a k o e l) c d Hc E Hd). }
  rewrite (flat_map_eq _ (fun c => if negb (r_equal c) && negb (excluded c) then [$"(" ++ msg own' c ++ $")"] else []) l).
  2: { intros c Hc. destruct (r_equal c) eqn:E; [reflexivity|]. rewrite (C c Hc E). reflexivity. }
  rewrite (flat_map_eq (fun c => if negb (r_equal c) && excluded c then [$"<IGNORING: " ++ msg own c ++ $">"] else []) (fun c => if negb (r_equal c) && excluded c then [$"<IGNORING: " ++ msg own' c ++ $">"] else []) l).
  2: { intros c Hc. destruct (r_equal c) eqn:E; [reflexivity|]. rewrite (C c Hc E). reflexivity. }
  reflexivity.
Qed.
(** Nothing is added exactly if no child failed. *)
Theorem msg_plain own r : msg own r = own r <-> forall c, In c (r_children r) -> r_equal c = true.
Proof.
  destruct r as [i a k o e l]. cbn [r_children]. split.
  - intros H c Hc. destruct (r_equal c) eqn:E; [reflexivity|exfalso]. cbn [msg] in H. set (A := flat_map _ l ++ _) in H.
    assert (I : A <> []).
    { intros Z. assert (I : In (shout own c) A); [|rewrite Z in I; destruct I].
      unfold A, shout. apply in_app_iff. destruct (excluded c) eqn:X; [right|left]; apply in_flat_map; exists c; (split; [exact Hc|]); rewrite E, X; left; reflexivity. }
    clearbody A. destruct A as [|x A]; [congruence|]. apply (f_equal (@List.length Z)) in H. rewrite !app_length in H. change (List.length $": ") with 2%nat in H. lia.
  - intros H. cbn [msg]. rewrite (flat_map_eq _ (fun _ => []) l); [|intros c Hc; rewrite (H c Hc); reflexivity].
    rewrite (flat_map_eq (fun c => if negb (r_equal c) && excluded c then _ else []) (fun _ => []) l); [|intros c Hc; rewrite (H c Hc); reflexivity].
    assert (N : forall l : list cres, flat_map (fun _ => []) l = ([] : list str)) by (induction l0; [reflexivity|assumption]). rewrite N. reflexivity.
Qed.
(** A leaf to blame is in the message, in parentheses. *)
Theorem msg_blames own r d : blamed r d -> within ($"(" ++ msg own d ++ $")") (msg own r).
Proof.
  induction 1 as [r c H E X|r c d H E X _ IH].
  - pose proof (msg_child own r c H E) as W. unfold shout in W. rewrite X in W. exact W.
  - apply (within_trans _ _ _ IH). apply (within_trans _ _ _ (shout_in own c)). exact (msg_child own r c H E).
Qed.

(** ** The text on several lines. *)
Lemma lines_app ls t ls' t' : on_lines ls t -> on_lines ls' t' -> on_lines (ls ++ ls') (t ++ [10] ++ t').
Proof.
  induction 1 as [l N|l ls t N _ IH]; intros H; cbn [app].
  - apply ol_line; assumption.
  - rewrite <- app_assoc. apply ol_line; [exact N|]. exact (IH H).
Qed.
Lemma lines_joined ts lss : Forall2 on_lines lss ts -> ts <> [] -> on_lines (concat lss) (joined [10] ts).
Proof.
  induction 1 as [|ls t lss ts H F IH]; intros N; [congruence|]. cbn [concat]. destruct ts as [|t' ts].
  - inversion F; subst. cbn [concat joined]. rewrite app_nil_r. exact H.
  - change (joined [10] (t :: t' :: ts)) with (t ++ [10] ++ joined [10] (t' :: ts)). apply lines_app; [exact H|]. apply IH. discriminate.
Qed.
Lemma cut_line (l l' t t' : str) : ~ In 10 l -> ~ In 10 l' -> l ++ 10 :: t = l' ++ 10 :: t' -> l = l' /\ t = t'.
Proof.
  revert l'. induction l as [|c l IH]; intros [|c' l'] N N' E; cbn [app] in E.
  - split; congruence.
  - exfalso. apply N'. left. congruence.
  - exfalso. apply N. left. congruence.
  - apply (f_equal (fun x => match x with [] => (0, []) | a :: b => (a, b) end)) in E. apply pair_equal_spec in E as [-> E].
    destruct (IH l') as [-> ->]; auto; [intros H; apply N; right; exact H|intros H; apply N'; right; exact H].
Qed.
Lemma lines_unique ls ls' t : on_lines ls t -> on_lines ls' t -> ls = ls'.
Proof.
  intros H. revert ls'. induction H as [l N|l ls t N H IH]; intros ls' H'.
  - inversion H'; subst; [reflexivity|]. exfalso. apply N. apply in_or_app. right. left. reflexivity.
  - remember (l ++ 10 :: t) as u eqn:U. destruct H' as [l' N'|l' ls1 t1 N' H1].
    + exfalso. apply N'. rewrite U. apply in_or_app. right. left. reflexivity.
    + destruct (cut_line _ _ _ _ N' N U) as [-> ->]. f_equal. apply IH. exact H1.
Qed.
Lemma lines_some ls t : on_lines ls t -> ls <> [].
Proof. intros [l N|l ls' t' N H]; discriminate. Qed.
(** The lines as a tree. *)
Inductive tree := T (line : str) (below : list tree).
Fixpoint picture (own : cres -> str) (more : cres -> list str) (r : cres) : tree :=
  match r with CR _ _ _ _ _ l => T (mark r ++ own r) (match l with [] => map (fun s => T s []) (more r) | _ => map (picture own more) l end) end.
Fixpoint listing (d : nat) (t : tree) : list str := match t with T s l => (spaces d ++ s) :: flat_map (listing (d + 2)) l end.
Lemma spaces_no_line d : ~ In 10 (spaces d).
Proof. intros H. apply repeat_spec in H. discriminate H. Qed.
Lemma spaces_more d : spaces d ++ $"  " = spaces (d + 2).
Proof. unfold spaces. rewrite repeat_app. reflexivity. Qed.
Lemma tidy_child own more r c : tidy own more r -> In c (r_children r) -> tidy own more c.
Proof. intros [A B] H. constructor; intros d Hd; [apply A|apply B]; exact (po_child r c d H Hd). Qed.
Lemma mark_no_line r : ~ In 10 (mark r).
Proof. unfold mark. intros [H|H]; [destruct (excluded r), (r_equal r); discriminate H|]. vm_compute in H. intuition discriminate. Qed.
Lemma first_line own more r d : tidy own more r -> ~ In 10 (spaces d ++ mark r ++ own r).
Proof.
  intros H I. apply in_app_or in I as [I|I]; [exact (spaces_no_line d I)|]. apply in_app_or in I as [I|I]; [exact (mark_no_line r I)|].
  exact (td_own _ _ _ H r (po_self r) I).
Qed.
Lemma details d f ls : ~ In 10 f -> Forall detail ls -> on_lines (f :: map (fun l => spaces (d + 2) ++ l) ls) (f ++ flat_map (fun l => [10] ++ (spaces d ++ $"  ") ++ l) ls).
Proof.
  intros N H. revert f N. induction H as [|l ls [A _] _ IH]; intros f N; cbn [map flat_map]; [rewrite app_nil_r; apply ol_last, N|].
  rewrite spaces_more, <- app_assoc. cbn [app]. apply ol_line; [exact N|]. rewrite spaces_more in IH.
  rewrite <- spaces_more in *. apply IH. intros I. apply in_app_or in I as [I|I]; [|exact (A I)].
  apply in_app_or in I as [I|I]; [exact (spaces_no_line d I)|]. vm_compute in I. intuition discriminate.
Qed.
Lemma leaf_listing d ls : flat_map (listing d) (map (fun s => T s []) ls) = map (fun l => spaces d ++ l) ls.
Proof. induction ls as [|l ls IH]; [reflexivity|]. cbn [map flat_map listing]. rewrite IH. reflexivity. Qed.
Lemma show_lines own more : forall r d, tidy own more r -> on_lines (listing d (picture own more r)) (show own more (spaces d) r).
Proof.
  apply (cres_deep (fun r => forall d, tidy own more r -> on_lines (listing d (picture own more r)) (show own more (spaces d) r))).
  intros i a k o e l IH d H. set (r := CR i a k o e l). destruct l as [|c l].
  - change (show own more (spaces d) r) with ((spaces d ++ mark r ++ own r) ++ flat_map (fun l => [10] ++ (spaces d ++ $"  ") ++ l) (more r)).
    change (listing d (picture own more r)) with ((spaces d ++ mark r ++ own r) :: flat_map (listing (d + 2)) (map (fun s => T s []) (more r))).
    rewrite leaf_listing. apply details; [exact (first_line own more r d H)|]. exact (td_more _ _ _ H r (po_self r) eq_refl).
  - change (show own more (spaces d) r) with ((spaces d ++ mark r ++ own r) ++ [10] ++ joined [10] (map (show own more (spaces d ++ $"  ")) (c :: l))).
    change (listing d (picture own more r)) with ((spaces d ++ mark r ++ own r) :: flat_map (listing (d + 2)) (map (picture own more) (c :: l))).
    apply (ol_line (spaces d ++ mark r ++ own r)); [exact (first_line own more r d H)|]. rewrite spaces_more.
    rewrite flat_map_concat_map, map_map. apply lines_joined; [|discriminate].
    assert (G : Forall (fun c => on_lines (listing (d + 2) (picture own more c)) (show own more (spaces (d + 2)) c)) (c :: l)).
    { rewrite Forall_forall in *. intros x Hx. apply (IH x Hx). exact (tidy_child own more r x H Hx). }
    clear -G. induction G; cbn [map]; constructor; assumption.
Qed.
(** ** The tree can be told from the lines. *)
Inductive visible : tree -> Prop := vis c s l : c <> 32 -> Forall visible l -> visible (T (c :: s) l).
Definition outer (d : nat) (R : list str) : Prop := match R with [] => True | h :: _ => exists k c s, (k < d)%nat /\ c <> 32 /\ h = spaces k ++ c :: s end.
Lemma spaces_same k k' c c' (s s' : str) : c <> 32 -> c' <> 32 -> spaces k ++ c :: s = spaces k' ++ c' :: s' -> k = k' /\ c :: s = c' :: s'.
Proof.
  unfold spaces. revert k'. induction k as [|k IH]; intros [|k'] N N' E; cbn [repeat app] in E.
  - auto.
  - exfalso. apply N. congruence.
  - exfalso. apply N'. congruence.
  - assert (E' : repeat 32 k ++ c :: s = repeat 32 k' ++ c' :: s') by congruence. destruct (IH k' N N' E') as [-> ->]. auto.
Qed.
Fixpoint size (t : tree) : nat := match t with T _ l => S (list_sum (map size l)) end.
Lemma outer_more d (F : list tree) R : Forall visible F -> outer d R -> outer (d + 2) (flat_map (listing d) F ++ R).
Proof.
  intros V O. destruct V as [|t F [c s l N _] V]; cbn [flat_map app].
  - destruct R as [|h R]; [exact I|]. destruct O as (k & c & s & A & B & C). exists k, c, s. split; [lia|auto].
  - cbn [listing app outer]. exists d, c, s. split; [lia|auto].
Qed.
Lemma listing_same : forall n (F G : list tree) d R R', (list_sum (map size F) <= n)%nat -> Forall visible F -> Forall visible G -> outer d R -> outer d R' ->
  flat_map (listing d) F ++ R = flat_map (listing d) G ++ R' -> F = G /\ R = R'.
Proof.
  induction n as [|n IH]; intros F G d R R' L VF VG O O' E.
  - destruct VF as [|t F [c s l N _] _]; [|cbn [map size list_sum fold_right] in L; exfalso; revert L; cbn; lia].
    destruct VG as [|t G [c s l N _] _]; [auto|]. exfalso. cbn [flat_map listing app] in E. rewrite E in O. destruct O as (k & c' & s' & A & B & C).
    destruct (spaces_same _ _ _ _ _ _ N B C) as [-> _]. lia.
  - destruct VF as [|t F [c s l N VL] VF]; destruct VG as [|t' G [c' s' l' N' VL'] VG].
    + auto.
    + exfalso. cbn [flat_map listing app] in E. rewrite E in O. destruct O as (k & c1 & s1 & A & B & C). destruct (spaces_same _ _ _ _ _ _ N' B C) as [-> _]. lia.
    + exfalso. cbn [flat_map listing app] in E. rewrite <- E in O'. destruct O' as (k & c1 & s1 & A & B & C). destruct (spaces_same _ _ _ _ _ _ N B C) as [-> _]. lia.
    + cbn [flat_map listing app] in E. rewrite <- !app_assoc in E.
      apply (f_equal (fun x => match x with [] => ([], []) | a :: b => (a, b) end)) in E. apply pair_equal_spec in E as [E1 E2].
      destruct (spaces_same _ _ _ _ _ _ N N' E1) as [_ E3]. 
      assert (L' : (S (list_sum (map size l)) + list_sum (map size F) <= S n)%nat) by exact L.
      destruct (IH l l' (d + 2)%nat (flat_map (listing d) F ++ R) (flat_map (listing d) G ++ R')) as [-> E4]; auto using outer_more; [lia|].
      destruct (IH F G d R R') as [-> ->]; auto; [lia|]. rewrite E3. auto.
Qed.
Lemma sign_mark r : exists z, mark r = z :: $"   " /\ sign r z /\ In z [0x25EF; 0x2705; 0x274c].
Proof.
  unfold mark. eexists. split; [reflexivity|]. destruct (excluded r) eqn:X; [split; [apply sg_circle, X|left; reflexivity]|].
  destruct (r_equal r) eqn:E; [split; [apply sg_tick; assumption|right; left; reflexivity]|split; [apply sg_cross; assumption|right; right; left; reflexivity]].
Qed.
Lemma sign_same r r' z : sign r z -> sign r' z -> excluded r = excluded r' /\ (excluded r = false -> r_equal r = r_equal r').
Proof. intros [A|A B|A B] H; inversion H as [A'|A' B'|A' B']; split; congruence. Qed.
Lemma picture_visible own more : forall r, tidy own more r -> visible (picture own more r).
Proof.
  apply (cres_deep (fun r => tidy own more r -> visible (picture own more r))). intros i a k o e l IH H. set (r := CR i a k o e l).
  change (picture own more r) with (T (mark r ++ own r) (match l with [] => map (fun s => T s []) (more r) | _ => map (picture own more) l end)).
  destruct (sign_mark r) as (z & -> & _ & Hz). cbn [app]. constructor; [intros ->; destruct Hz as [Z|[Z|[Z|[]]]]; discriminate Z|]. destruct l as [|c l].
  - pose proof (td_more _ _ _ H r (po_self r) eq_refl) as D. clear -D. induction D as [|s ls [_ (c & s' & -> & N)] _ IH]; cbn [map]; constructor; [|exact IH].
    constructor; [intros ->; apply N; left; reflexivity|constructor].
  - apply Forall_forall. intros t Ht. apply in_map_iff in Ht as (x & <- & Hx). rewrite Forall_forall in IH. apply (IH x Hx). exact (tidy_child own more r x H Hx).
Qed.
Lemma detail_no_mark s own more r : detail s -> T s [] <> picture own more r.
Proof.
  intros [_ (c & s' & -> & N)]. destruct r as [i a k o e l]. set (r := CR i a k o e l).
  change (picture own more r) with (T (mark r ++ own r) (match l with [] => map (fun s => T s []) (more r) | _ => map (picture own more) l end)).
  destruct (sign_mark r) as (z & -> & _ & Hz). cbn [app]. intros E. apply N. right. apply (f_equal (fun t => match t with T (c :: _) _ => c | _ => 0 end)) in E. cbv iota in E. subst c. exact Hz.
Qed.
Definition root (t : tree) : str := match t with T s _ => s end.
Definition kids (t : tree) : list tree := match t with T _ l => l end.
Lemma picture_alike own more own' more' : forall r r', tidy own more r -> tidy own' more' r' -> picture own more r = picture own' more' r' -> alike own more own' more' r r'.
Proof.
  apply (cres_deep (fun r => forall r', tidy own more r -> tidy own' more' r' -> picture own more r = picture own' more' r' -> alike own more own' more' r r')).
  intros i a k o e l IH [i' a' k' o' e' l'] H H' E. set (r := CR i a k o e l) in *. set (r' := CR i' a' k' o' e' l') in *.
  pose proof (f_equal root E) as E1. pose proof (f_equal kids E) as E2. clear E.
  change (mark r ++ own r = mark r' ++ own' r') in E1.
  change (match l with [] => map (fun s => T s []) (more r) | _ => map (picture own more) l end = match l' with [] => map (fun s => T s []) (more' r') | _ => map (picture own' more') l' end) in E2.
  destruct (sign_mark r) as (z & M & S & _). destruct (sign_mark r') as (z' & M' & S' & _). rewrite M, M' in E1. cbn [app] in E1.
  apply (f_equal (fun x => match x with [] => (0, []) | a :: b => (a, b) end)) in E1. apply pair_equal_spec in E1 as [-> E1]. apply app_inv_head in E1.
  destruct (sign_same r r' z' S S') as [X1 X2]. destruct l as [|c l]; destruct l' as [|c' l'].
  - constructor; auto; [|constructor]. intros _. clear -E2. revert E2. generalize (more r), (more' r'). induction l as [|s l IH]; intros [|s' l'] E; cbn [map] in E; try discriminate E; [reflexivity|].
    apply (f_equal (fun x => match x with [] => ([], []) | a :: b => (root a, b) end)) in E. apply pair_equal_spec in E as [E1 E2]. cbn [root] in E1. rewrite E1, (IH l' E2). reflexivity.
  - exfalso. pose proof (td_more _ _ _ H r (po_self r) eq_refl) as D. destruct D as [|s ls D _]; cbn [map] in E2; [discriminate E2|].
    apply (f_equal (fun x => match x with [] => T [] [] | a :: b => a end)) in E2. exact (detail_no_mark s own' more' c' D E2).
  - exfalso. pose proof (td_more _ _ _ H' r' (po_self r') eq_refl) as D. destruct D as [|s ls D _]; cbn [map] in E2; [discriminate E2|].
    apply (f_equal (fun x => match x with [] => T [] [] | a :: b => a end)) in E2. exact (detail_no_mark s own more c D (eq_sym E2)).
  - constructor; auto; [intros Z; discriminate Z|]. cbn [r_children].
    assert (TC : Forall (tidy own more) (c :: l)) by (apply Forall_forall; intros x Hx; exact (tidy_child own more r x H Hx)).
    assert (TC' : Forall (tidy own' more') (c' :: l')) by (apply Forall_forall; intros x Hx; exact (tidy_child own' more' r' x H' Hx)).
    cbn [r_children r r']. clear -IH TC TC' E2. revert IH TC TC' E2. generalize (c :: l), (c' :: l'). clear. intros l. induction l as [|c l IHl]; intros [|c' l'] IH TC TC' E; cbn [map] in E; try discriminate E; [constructor|].
    apply (f_equal (fun x => match x with [] => (T [] [], []) | a :: b => (a, b) end)) in E. apply pair_equal_spec in E as [E1 E2]. inversion IH; subst. inversion TC; subst. inversion TC'; subst. constructor; auto.
Qed.
Theorem shown_alike own more own' more' r r' : tidy own more r -> tidy own' more' r' -> to_str own more r = to_str own' more' r' -> alike own more own' more' r r'.
Proof.
  intros H H' E. apply picture_alike; auto. unfold to_str in E. change ([] : str) with (spaces 0) in E.
  pose proof (show_lines own more r 0 H) as L. pose proof (show_lines own' more' r' 0 H') as L'. rewrite <- E in L'. pose proof (lines_unique _ _ _ L L') as Q.
  destruct (listing_same (size (picture own more r)) [picture own more r] [picture own' more' r'] 0 [] []) as [X _].
  - cbn [map list_sum fold_right]. lia.
  - constructor; [apply picture_visible, H|constructor].
  - constructor; [apply picture_visible, H'|constructor].
  - exact I.
  - exact I.
  - cbn [flat_map]. rewrite !app_nil_r. exact Q.
  - congruence.
Qed.
(** ** The lines. *)
Lemma listing_page own more : forall r d, page own more d r (listing d (picture own more r)).
Proof.
  apply (cres_deep (fun r => forall d, page own more d r (listing d (picture own more r)))). intros i a k o e l IH d. set (r := CR i a k o e l).
  destruct (sign_mark r) as (z & M & S & _). destruct l as [|c l].
  - change (listing d (picture own more r)) with ((spaces d ++ mark r ++ own r) :: flat_map (listing (d + 2)) (map (fun s => T s []) (more r))). rewrite leaf_listing, M. apply pg_leaf; [reflexivity|exact S].
  - change (listing d (picture own more r)) with ((spaces d ++ mark r ++ own r) :: flat_map (listing (d + 2)) (map (picture own more) (c :: l))). rewrite M, flat_map_concat_map, map_map.
    apply pg_tree; [discriminate|exact S|]. cbn [r_children r]. clear -IH. induction IH; cbn [map]; constructor; auto.
Qed.
Theorem shown_page own more r : tidy own more r -> exists ls, on_lines ls (to_str own more r) /\ page own more 0 r ls.
Proof. intros H. exists (listing 0 (picture own more r)). split; [exact (show_lines own more r 0 H)|apply listing_page]. Qed.
