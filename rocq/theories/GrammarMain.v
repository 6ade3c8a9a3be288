(** [loads] reads exactly the texts of the grammar: values. *)
From Coq Require Import String Lia ZifyBool ZifyNat Decimal.
From Verif Require Import Base BaseProofs PyValue PyValueProofs Json JsonProofs JsonFuel GrammarSpec GrammarProofs.
Local Open Scope list_scope.

Scheme text_mut := Induction for text Sort Prop with elements_mut := Induction for elements Sort Prop with members_mut := Induction for members Sort Prop.
Combined Scheme grammar_ind from text_mut, elements_mut, members_mut.

Ltac lens := repeat (rewrite ?app_length; cbn [List.length]).
Ltac lens_in L := repeat (rewrite ?app_length in L; cbn [List.length] in L).

(** ** Texts are read. *)
Lemma ends_blank w r : blank w -> ends r -> ends (w ++ r).
Proof. intros B E. destruct B as [|c w I B]; [exact E|]. cbn [List.app ends]. cbn [In] in I. lia. Qed.
Lemma white_no c : c = 34 \/ c = 123 \/ c = 91 \/ c = 110 \/ c = 116 \/ c = 102 \/ c = 45 \/ 48 <= c <= 57 \/ c = 44 \/ c = 93 \/ c = 125 \/ c = 58 -> is_white c = false.
Proof. unfold is_white. lia. Qed.
Lemma number_starts t z : number t z -> exists c r, t = c :: r /\ (c = 45 \/ 48 <= c <= 57).
Proof.
  intros [ds (N & F & _)|ds _]; [|exists 45, ds; auto]. destruct ds as [|c ds]; [congruence|]. exists c, ds. split; [reflexivity|]. right. exact (Forall_inv F).
Qed.
Lemma text_starts t v : text t v -> starts t.
Proof.
  intros []; try (eexists _, _; split; [reflexivity|]; tauto). destruct (number_starts _ _ H) as (c & r & -> & B). exists c, r. split; [reflexivity|]. tauto.
Qed.
Lemma expect_app w s : expect w (w ++ s) = Ok s.
Proof. unfold expect. replace (strip w (w ++ s)) with (Some s); [reflexivity|]. induction w as [|c w IH]; [reflexivity|]. cbn [List.app strip]. rewrite Z.eqb_refl. exact IH. Qed.
Lemma not_125 {A} (c : Z) x (f g : str -> A) : c <> 125 -> match c :: x with 125 :: s => f s | s => g s end = g (c :: x).
Proof. intros N. destruct c as [|q|q]; try reflexivity. do 8 (try destruct q as [q|q|]; try reflexivity; try lia). Qed.
Definition reads2 (t : str) (v : pv) : Prop := forall fuel rest, ends rest -> (List.length t < fuel)%nat -> scan_once fuel (t ++ rest) = Ok (v, rest).
Definition reads_items (t : str) (l : list pv) : Prop :=
  (exists c r, forall rest, ws (t ++ rest) = c :: r ++ rest /\ c <> 93) /\ (List.length l <= List.length t)%nat /\
  forall fuel n rest, (List.length t < fuel)%nat -> (List.length l <= n)%nat -> scan_items fuel n (ws (t ++ 93 :: rest)) = Ok (l, rest).
Definition reads_pairs (t : str) (d : dict) : Prop :=
  (exists c r, forall rest, ws (t ++ rest) = c :: r ++ rest /\ c <> 125) /\ (List.length d <= List.length t)%nat /\
  forall fuel n rest, (List.length t < fuel)%nat -> (List.length d <= n)%nat -> scan_pairs fuel n (ws (t ++ 125 :: rest)) = Ok (d, rest).
Lemma blank_starts w t x : blank w -> starts t -> exists c r, forall rest, ws ((w ++ t ++ x) ++ rest) = c :: r ++ rest /\ c <> 93 /\ c <> 125.
Proof.
  intros B S. pose proof S as (c & r & E & H). exists c, (r ++ x). intros rest. rewrite <- !app_assoc, ws_blank, ws_starts by assumption. rewrite E. split; [reflexivity|]. lia.
Qed.
Lemma all_read : (forall t v, text t v -> reads2 t v) /\ (forall t l, elements t l -> reads_items t l) /\ (forall t d, members t d -> reads_pairs t d).
Proof.
  apply grammar_ind.
  - intros fuel rest E L. destruct fuel as [|fuel]; [lia|]. reflexivity.
  - intros fuel rest E L. destruct fuel as [|fuel]; [lia|]. reflexivity.
  - intros fuel rest E L. destruct fuel as [|fuel]; [lia|]. reflexivity.
  - intros t z N fuel rest E L. destruct fuel as [|fuel]; [lia|]. pose proof (scan_number t z rest N E) as R. destruct (number_starts t z N) as (c & r & -> & D).
    cbn [List.app] in R |- *. cbn [scan_once].
    replace (c =? 34) with false by lia. replace (c =? 123) with false by lia. replace (c =? 91) with false by lia.
    replace (c =? 110) with false by lia. replace (c =? 116) with false by lia. replace (c =? 102) with false by lia. rewrite R. reflexivity.
  - intros t v C fuel rest E L. destruct fuel as [|fuel]; [lia|]. cbn [List.app List.length] in *. rewrite app_length in L. cbn [List.length] in L. rewrite <- app_assoc. cbn [List.app scan_once].
    change (34 =? 34) with true. cbv iota. rewrite (chars_scan t v C) by lia. reflexivity.
  - intros w B fuel rest E L. destruct fuel as [|fuel]; [lia|]. cbn [List.app]. rewrite <- app_assoc, scan_once_list, ws_blank by exact B. reflexivity.
  - intros t l El ((c & r & H1) & H2 & H3) fuel rest E L. destruct fuel as [|fuel]; [lia|]. cbn [List.app List.length] in *. rewrite app_length in L. cbn [List.length] in L.
    rewrite <- app_assoc, scan_once_list. cbn [List.app]. specialize (H3 fuel fuel rest ltac:(lia) ltac:(lia)). destruct (H1 (93 :: rest)) as [W N]. rewrite W in *.
    rewrite (not_93 c (r ++ 93 :: rest) (fun s => Ok (PList [], s)) (fun s => rbind (scan_items fuel fuel s) (fun '(l, s) => Ok (PList l, s)))) by exact N. rewrite H3. reflexivity.
  - intros w B fuel rest E L. destruct fuel as [|fuel]; [lia|]. cbn [List.app]. rewrite <- app_assoc, scan_once_dict, ws_blank by exact B. reflexivity.
  - intros t d e Me ((c & r & H1) & H2 & H3) G fuel rest E L. destruct fuel as [|fuel]; [lia|]. cbn [List.app List.length] in *. rewrite app_length in L. cbn [List.length] in L.
    rewrite <- app_assoc, scan_once_dict. cbn [List.app]. specialize (H3 fuel fuel rest ltac:(lia) ltac:(lia)). destruct (H1 (125 :: rest)) as [W N]. rewrite W in *.
    rewrite (not_125 c (r ++ 125 :: rest) (fun s => Ok (PDict [], s)) (fun s => rbind (scan_pairs fuel fuel s) (fun '(d, s) => Ok (PDict (fold_left (fun e kv => dset (fst kv) (snd kv) e) d []), s)))) by exact N.
    rewrite H3. cbn [rbind]. rewrite (gathers_one d e G). reflexivity.
  - intros w1 t v w2 B1 T IH B2. pose proof (text_starts t v T) as S. split; [|split].
    + destruct (blank_starts w1 t w2 B1 S) as (c & r & H). exists c, r. intros rest. destruct (H rest) as (H1 & H2 & _). auto.
    + destruct S as (c & r & -> & _). lens. lia.
    + intros fuel n rest L Ln. rewrite !app_length in L. destruct n as [|n]; [cbn [List.length] in Ln; lia|]. rewrite <- !app_assoc, ws_blank, ws_starts by assumption. cbn [scan_items].
      rewrite (IH fuel (w2 ++ 93 :: rest)) by (lia || (apply ends_blank; [exact B2|cbn [ends]; lia])). cbn [rbind]. rewrite ws_blank, ws_other by (assumption || reflexivity). reflexivity.
  - intros w1 t v w2 r l B1 T IH B2 El (_ & H2 & H3). pose proof (text_starts t v T) as S. split; [|split].
    + destruct (blank_starts w1 t (w2 ++ 44 :: r) B1 S) as (c & r' & H). exists c, r'. intros rest. destruct (H rest) as (E1 & E2 & _). auto.
    + destruct S as (c & r' & -> & _). lens. lia.
    + intros fuel n rest L Ln. rewrite !app_length in L. cbn [List.length] in L, Ln. destruct n as [|n]; [lia|]. rewrite <- !app_assoc, ws_blank, ws_starts by assumption. cbn [scan_items List.app].
      rewrite (IH fuel (w2 ++ 44 :: r ++ 93 :: rest)) by (lia || (apply ends_blank; [exact B2|cbn [ends]; lia])). cbn [rbind]. rewrite ws_blank, ws_other by (assumption || reflexivity).
      rewrite H3 by lia. reflexivity.
  - intros w1 kt k w2 w3 t v w4 B1 C B2 B3 T IH B4. pose proof (text_starts t v T) as S. assert (S34 : starts (34 :: kt ++ [34])) by (eexists _, _; split; [reflexivity|tauto]). split; [|split].
    + destruct (blank_starts w1 (34 :: kt ++ [34]) (w2 ++ 58 :: w3 ++ t ++ w4) B1 S34) as (c & r & H). exists c, r. intros rest. destruct (H rest) as (H1 & _ & H2). auto.
    + lens. lia.
    + intros fuel n rest L Ln. lens_in L. cbn [List.length] in Ln. destruct n as [|n]; [lia|].
      rewrite <- !app_assoc, ws_blank, ws_starts by assumption. cbn [scan_pairs List.app]. change (34 :: (kt ++ [34]) ++ w2 ++ 58 :: (w3 ++ t ++ w4) ++ 125 :: rest) with ([34] ++ (kt ++ [34]) ++ w2 ++ 58 :: (w3 ++ t ++ w4) ++ 125 :: rest).
      rewrite expect_app. cbn [rbind]. rewrite <- !app_assoc. cbn [List.app]. rewrite (chars_scan kt k C) by lia. cbn [rbind]. rewrite ws_blank, ws_other by (assumption || reflexivity).
      change (58 :: w3 ++ t ++ w4 ++ 125 :: rest) with ([58] ++ w3 ++ t ++ w4 ++ 125 :: rest). rewrite expect_app. cbn [rbind]. rewrite ws_blank, ws_starts by assumption.
      rewrite (IH fuel (w4 ++ 125 :: rest)) by (lia || (apply ends_blank; [exact B4|cbn [ends]; lia])). cbn [rbind]. rewrite ws_blank, ws_other by (assumption || reflexivity). reflexivity.
  - intros w1 kt k w2 w3 t v w4 r d B1 C B2 B3 T IH B4 Me (_ & H2 & H3). pose proof (text_starts t v T) as S. assert (S34 : starts (34 :: kt ++ [34])) by (eexists _, _; split; [reflexivity|tauto]). split; [|split].
    + destruct (blank_starts w1 (34 :: kt ++ [34]) (w2 ++ 58 :: w3 ++ t ++ w4 ++ 44 :: r) B1 S34) as (c & r' & H). exists c, r'. intros rest. destruct (H rest) as (E1 & _ & E2). auto.
    + lens. lia.
    + intros fuel n rest L Ln. lens_in L. cbn [List.length] in Ln. destruct n as [|n]; [lia|].
      rewrite <- !app_assoc, ws_blank, ws_starts by assumption. cbn [scan_pairs List.app].
      change (34 :: (kt ++ [34]) ++ w2 ++ 58 :: (w3 ++ t ++ w4 ++ 44 :: r) ++ 125 :: rest) with ([34] ++ (kt ++ [34]) ++ w2 ++ 58 :: (w3 ++ t ++ w4 ++ 44 :: r) ++ 125 :: rest).
      rewrite expect_app. cbn [rbind]. rewrite <- !app_assoc. cbn [List.app]. rewrite (chars_scan kt k C) by lia. cbn [rbind]. rewrite ws_blank, ws_other by (assumption || reflexivity).
      change (58 :: w3 ++ t ++ w4 ++ 44 :: r ++ 125 :: rest) with ([58] ++ w3 ++ t ++ w4 ++ 44 :: r ++ 125 :: rest). rewrite expect_app. cbn [rbind]. rewrite ws_blank, ws_starts by assumption.
      rewrite (IH fuel (w4 ++ 44 :: r ++ 125 :: rest)) by (lia || (apply ends_blank; [exact B4|cbn [ends]; lia])). cbn [rbind]. rewrite ws_blank, ws_other by (assumption || reflexivity).
      rewrite H3 by lia. reflexivity.
Qed.
Theorem loads_complete s v : json_text s v -> loads s = Ok v.
Proof.
  intros (w1 & t & w2 & B1 & T & B2 & ->). unfold loads. rewrite ws_blank, ws_starts by (assumption || apply (text_starts t v T)).
  rewrite (proj1 all_read t v T) by ((rewrite ?app_length; lia) || (rewrite <- (app_nil_r w2); apply ends_blank; [exact B2|exact I])).
  cbn [rbind]. rewrite ws_blank_all by exact B2. reflexivity.
Qed.

(** ** What is read is a text. *)
Lemma strip_app w : forall s r, strip w s = Some r -> s = w ++ r.
Proof. induction w as [|x w IH]; intros s r H; cbn [strip] in H; [injection H; intros ->; reflexivity|]. destruct s as [|y s]; [discriminate H|]. destruct (Z.eqb_spec x y); [|discriminate H]. subst. cbn [List.app]. rewrite <- (IH s r H). reflexivity. Qed.
Lemma expect_ok w s r : expect w s = Ok r -> s = w ++ r.
Proof. unfold expect. destruct (strip w s) eqn:E; [|discriminate]. intros H. apply Ok_eq in H. subst. exact (strip_app _ _ _ E). Qed.
Lemma elements_blank w t l : blank w -> elements t l -> elements (w ++ t) l.
Proof. intros B [w1 t' v w2 B1 T B2|w1 t' v w2 r l' B1 T B2 R]; rewrite app_assoc; [apply el_one|apply el_more]; try assumption; apply blank_app; assumption. Qed.
Lemma members_blank w t d : blank w -> members t d -> members (w ++ t) d.
Proof. intros B [w1 kt k w2 w3 t' v w4 B1 C B2 B3 T B4|w1 kt k w2 w3 t' v w4 r d' B1 C B2 B3 T B4 R]; rewrite app_assoc; [apply mem_one|apply mem_more]; try assumption; apply blank_app; assumption. Qed.
Definition sound (fuel : nat) : Prop := forall s v r, scan_once fuel s = Ok (v, r) -> exists t, s = t ++ r /\ text t v.
Lemma items_sound fuel : sound fuel -> forall n s l r, scan_items fuel n s = Ok (l, r) -> exists t, s = t ++ 93 :: r /\ elements t l.
Proof.
  intros H. induction n as [|n IH]; intros s l r E; [discriminate E|]. cbn [scan_items] in E. apply rbind_ok in E as ([v s1] & E1 & E). apply H in E1 as (t & -> & T).
  destruct (ws_split s1) as (w2 & B2 & W). destruct (ws s1) as [|c s2]; [discriminate E|].
  rewrite (two_ways 44 93 c s2 (fun s => rbind (scan_items fuel n (ws s)) (fun '(l, s) => Ok (v :: l, s))) (fun s => Ok ([v], s)) (Err EValue)) in E by auto. subst s1.
  destruct (Z.eqb_spec c 44) as [->|N].
  - apply rbind_ok in E as ([l' r'] & E1 & E). apply Ok_eq, pair_equal_spec in E as [<- <-]. apply IH in E1 as (tr & E1 & El). destruct (ws_split s2) as (w3 & B3 & W3).
    exists ([] ++ t ++ w2 ++ 44 :: w3 ++ tr). split; [rewrite W3, E1; cbn [List.app]; rewrite <- !app_assoc; cbn [List.app]; rewrite <- !app_assoc; reflexivity|].
    apply el_more; [constructor|exact T|exact B2|]. apply elements_blank; assumption.
  - destruct (Z.eqb_spec c 93) as [->|]; [|discriminate E]. apply Ok_eq, pair_equal_spec in E as [<- <-]. exists ([] ++ t ++ w2). split; [cbn [List.app]; rewrite <- app_assoc; reflexivity|].
    apply el_one; [constructor|exact T|exact B2].
Qed.
Lemma pairs_sound fuel : sound fuel -> forall n s d r, scan_pairs fuel n s = Ok (d, r) -> exists t, s = t ++ 125 :: r /\ members t d.
Proof.
  intros H. induction n as [|n IH]; intros s d r E; [discriminate E|]. cbn [scan_pairs] in E. apply rbind_ok in E as (s1 & E1 & E). apply expect_ok in E1. subst s.
  apply rbind_ok in E as ([k s2] & E1 & E). apply scan_chars in E1 as (kt & -> & C). destruct (ws_split s2) as (w2 & B2 & W2).
  apply rbind_ok in E as (s3 & E1 & E). apply expect_ok in E1. rewrite E1 in W2. subst s2. clear E1. destruct (ws_split s3) as (w3 & B3 & W3).
  apply rbind_ok in E as ([v s4] & E1 & E). apply H in E1 as (t & E1 & T). rewrite E1 in W3. subst s3. clear E1.
  destruct (ws_split s4) as (w4 & B4 & W). destruct (ws s4) as [|c s5]; [discriminate E|].
  rewrite (two_ways 44 125 c s5 (fun s => rbind (scan_pairs fuel n (ws s)) (fun '(d, s) => Ok ((k, v) :: d, s))) (fun s => Ok ([(k, v)], s)) (Err EValue)) in E by auto. subst s4.
  destruct (Z.eqb_spec c 44) as [->|N].
  - apply rbind_ok in E as ([d' r'] & E1 & E). apply Ok_eq, pair_equal_spec in E as [<- <-]. apply IH in E1 as (tr & E1 & Me). destruct (ws_split s5) as (w5 & B5 & W5).
    exists ([] ++ (34 :: kt ++ [34]) ++ w2 ++ 58 :: w3 ++ t ++ w4 ++ 44 :: w5 ++ tr).
    split; [rewrite W5, E1; repeat (cbn [List.app]; rewrite <- ?app_assoc); reflexivity|].
    apply mem_more; try assumption; [constructor|]. apply members_blank; assumption.
  - destruct (Z.eqb_spec c 125) as [->|]; [|discriminate E]. apply Ok_eq, pair_equal_spec in E as [<- <-]. exists ([] ++ (34 :: kt ++ [34]) ++ w2 ++ 58 :: w3 ++ t ++ w4).
    split; [repeat (cbn [List.app]; rewrite <- ?app_assoc); reflexivity|]. apply mem_one; try assumption. constructor.
Qed.
Lemma one_way {A} (y c : Z) (x : str) (f g : str -> A) : y = 93 \/ y = 125 ->
  (match y with 93 => match c :: x with 93 :: s => f s | s => g s end | _ => match c :: x with 125 :: s => f s | s => g s end end) = if c =? y then f x else g (c :: x).
Proof.
  intros [->| ->].
  - destruct (Z.eqb_spec c 93) as [->|N]; [reflexivity|]. apply not_93, N.
  - destruct (Z.eqb_spec c 125) as [->|N]; [reflexivity|]. apply not_125, N.
Qed.
Lemma scan_sound fuel : sound fuel.
Proof.
  induction fuel as [|fuel IH]; intros s v r E; [discriminate E|]. destruct s as [|c t]; [discriminate E|].
  destruct (Z.eq_dec c 123) as [->|N1].
  { rewrite scan_once_dict in E. destruct (ws_split t) as (w & B & W).
    assert (Q : forall x, t = w ++ x -> rbind (scan_pairs fuel fuel x) (fun '(d, s) => Ok (PDict (fold_left (fun e kv => dset (fst kv) (snd kv) e) d []), s)) = Ok (v, r) -> exists t0, 123 :: t = t0 ++ r /\ text t0 v).
    { intros x -> Ex. apply rbind_ok in Ex as ([d r'] & E1 & E2). apply Ok_eq, pair_equal_spec in E2 as [<- <-]. apply (pairs_sound fuel IH) in E1 as (tx & -> & Me).
      exists (123 :: (w ++ tx) ++ [125]). split; [cbn [List.app]; rewrite <- !app_assoc; reflexivity|]. apply (txt_dict (w ++ tx) d); [apply members_blank; assumption|apply gathered_gathers]. }
    destruct (ws t) as [|c x]; [exact (Q [] W E)|].
    rewrite (one_way 125 c x (fun s => Ok (PDict [], s)) (fun s => rbind (scan_pairs fuel fuel s) (fun '(d, s) => Ok (PDict (fold_left (fun e kv => dset (fst kv) (snd kv) e) d []), s)))) in E by auto.
    destruct (Z.eqb_spec c 125) as [->|N]; [|exact (Q (c :: x) W E)]. apply Ok_eq, pair_equal_spec in E as [<- <-]. exists (123 :: w ++ [125]).
    split; [rewrite W; cbn [List.app]; rewrite <- app_assoc; reflexivity|]. apply txt_empty, B. }
  destruct (Z.eq_dec c 91) as [->|N2].
  { rewrite scan_once_list in E. destruct (ws_split t) as (w & B & W).
    assert (Q : forall x, t = w ++ x -> rbind (scan_items fuel fuel x) (fun '(l, s) => Ok (PList l, s)) = Ok (v, r) -> exists t0, 91 :: t = t0 ++ r /\ text t0 v).
    { intros x -> Ex. apply rbind_ok in Ex as ([d r'] & E1 & E2). apply Ok_eq, pair_equal_spec in E2 as [<- <-]. apply (items_sound fuel IH) in E1 as (tx & -> & Me).
      exists (91 :: (w ++ tx) ++ [93]). split; [cbn [List.app]; rewrite <- !app_assoc; reflexivity|]. apply txt_list. apply elements_blank; assumption. }
    destruct (ws t) as [|c x]; [exact (Q [] W E)|].
    rewrite (one_way 93 c x (fun s => Ok (PList [], s)) (fun s => rbind (scan_items fuel fuel s) (fun '(l, s) => Ok (PList l, s)))) in E by auto.
    destruct (Z.eqb_spec c 93) as [->|N]; [|exact (Q (c :: x) W E)]. apply Ok_eq, pair_equal_spec in E as [<- <-]. exists (91 :: w ++ [93]).
    split; [rewrite W; cbn [List.app]; rewrite <- app_assoc; reflexivity|]. apply txt_none, B. }
  cbn [scan_once] in E. replace (c =? 123) with false in E by lia. replace (c =? 91) with false in E by lia.
  assert (K : forall w x, text w x -> rbind (expect w (c :: t)) (fun s => Ok (x, s)) = Ok (v, r) -> exists t0, c :: t = t0 ++ r /\ text t0 v).
  { intros w x T Ex. apply rbind_ok in Ex as (s1 & E1 & E2). apply Ok_eq, pair_equal_spec in E2 as [<- <-]. apply expect_ok in E1. exists w. auto. }
  destruct (Z.eqb_spec c 34) as [->|N3].
  { apply rbind_ok in E as ([x r'] & E1 & E2). apply Ok_eq, pair_equal_spec in E2 as [<- <-]. apply scan_chars in E1 as (tx & -> & C). exists (34 :: tx ++ [34]).
    split; [cbn [List.app]; rewrite <- app_assoc; reflexivity|]. apply txt_string, C. }
  destruct (c =? 110); [exact (K _ _ txt_null E)|]. destruct (c =? 116); [exact (K _ _ txt_true E)|]. destruct (c =? 102); [exact (K _ _ txt_false E)|].
  apply rbind_ok in E as ([z r'] & E1 & E2). apply Ok_eq, pair_equal_spec in E2 as [<- <-]. apply scan_number_sound in E1 as (tz & E1 & Nz). exists tz. split; [exact E1|]. apply txt_number, Nz.
Qed.
Theorem loads_sound s v : loads s = Ok v -> json_text s v.
Proof.
  unfold loads. intros H. apply rbind_ok in H as ([v' r] & E & H). apply scan_sound in E as (t & E & T). destruct (ws_split s) as (w1 & B1 & W1). destruct (ws_split r) as (w2 & B2 & W2).
  destruct (ws r); [|discriminate H]. apply Ok_eq in H. subst v'. rewrite app_nil_r in W2. subst r. exists w1, t, w2. rewrite <- E. auto.
Qed.
Theorem loads_exact s v : loads s = Ok v <-> json_text s v.
Proof. split; [apply loads_sound|apply loads_complete]. Qed.
Theorem one_meaning s v v' : json_text s v -> json_text s v' -> v = v'.
Proof. intros A B. apply loads_complete in A, B. rewrite A in B. exact (Ok_eq _ _ B). Qed.

(** ** The exception. *)
Definition values {A} (r : res A) : Prop := match r with Ok _ => True | Err e => e = EValue \/ e = EFuel end.
Lemma values_bind {A B} (m : res A) (k : A -> res B) : values m -> (forall x, values (k x)) -> values (rbind m k).
Proof. intros M K. destruct m as [x|e]; cbn [rbind]; [apply K|exact M]. Qed.
Lemma values_expect w s : values (expect w s).
Proof. unfold expect. destruct (strip w s); [exact I|]. left. reflexivity. Qed.
Lemma values_str fuel : forall s, values (scan_str fuel s).
Proof. induction fuel as [|fuel IH]; intros s; [right; reflexivity|]. cbn [scan_str]. destruct (lex s); [exact I| |left; reflexivity]. apply values_bind; [apply IH|]. intros []. exact I. Qed.
Lemma values_int s : values (scan_int s).
Proof.
  unfold scan_int. destruct (match s with 45 :: t => (true, t) | _ => (false, s) end) as [neg s']. apply values_bind.
  - destruct (scan_nat_cases s') as [(t & _ & E)|[_ E]]; rewrite E; [exact I|]. destruct (scan_digits s') as [[] r]; (exact I || (left; reflexivity)).
  - intros [u t]. destruct t as [|c t]; [exact I|]. destruct (_ || _); [left; reflexivity|exact I].
Qed.
Lemma values_items fuel : (forall s, values (scan_once fuel s)) -> forall n s, values (scan_items fuel n s).
Proof.
  intros H. induction n as [|n IH]; intros s; [right; reflexivity|]. cbn [scan_items]. apply values_bind; [apply H|]. intros [v t]. destruct (ws t) as [|c r]; [left; reflexivity|].
  rewrite (two_ways 44 93 c r (fun s => rbind (scan_items fuel n (ws s)) (fun '(l, s) => Ok (v :: l, s))) (fun s => Ok ([v], s)) (Err EValue)) by auto.
  destruct (c =? 44); [apply values_bind; [apply IH|]; intros []; exact I|]. destruct (c =? 93); [exact I|left; reflexivity].
Qed.
Lemma values_pairs fuel : (forall s, values (scan_once fuel s)) -> forall n s, values (scan_pairs fuel n s).
Proof.
  intros H. induction n as [|n IH]; intros s; [right; reflexivity|]. cbn [scan_pairs]. apply values_bind; [apply values_expect|]. intros s1. apply values_bind; [apply values_str|]. intros [k s2].
  apply values_bind; [apply values_expect|]. intros s3. apply values_bind; [apply H|]. intros [v t]. destruct (ws t) as [|c r]; [left; reflexivity|].
  rewrite (two_ways 44 125 c r (fun s => rbind (scan_pairs fuel n (ws s)) (fun '(d, s) => Ok ((k, v) :: d, s))) (fun s => Ok ([(k, v)], s)) (Err EValue)) by auto.
  destruct (c =? 44); [apply values_bind; [apply IH|]; intros []; exact I|]. destruct (c =? 125); [exact I|left; reflexivity].
Qed.
Lemma values_once fuel : forall s, values (scan_once fuel s).
Proof.
  induction fuel as [|fuel IH]; intros s; [right; reflexivity|]. destruct s as [|c t]; [left; reflexivity|].
  destruct (Z.eq_dec c 123) as [->|N1].
  { rewrite scan_once_dict. assert (Q : forall x, values (rbind (scan_pairs fuel fuel x) (fun '(d, s) => Ok (PDict (fold_left (fun e kv => dset (fst kv) (snd kv) e) d []), s)))).
    { intros x. apply values_bind; [apply (values_pairs fuel IH)|]. intros []. exact I. }
    destruct (ws t) as [|c x]; [apply Q|]. rewrite (one_way 125 c x (fun s => Ok (PDict [], s)) (fun s => rbind (scan_pairs fuel fuel s) (fun '(d, s) => Ok (PDict (fold_left (fun e kv => dset (fst kv) (snd kv) e) d []), s)))) by auto.
    destruct (c =? 125); [exact I|apply Q]. }
  destruct (Z.eq_dec c 91) as [->|N2].
  { rewrite scan_once_list. assert (Q : forall x, values (rbind (scan_items fuel fuel x) (fun '(l, s) => Ok (PList l, s)))).
    { intros x. apply values_bind; [apply (values_items fuel IH)|]. intros []. exact I. }
    destruct (ws t) as [|c x]; [apply Q|]. rewrite (one_way 93 c x (fun s => Ok (PList [], s)) (fun s => rbind (scan_items fuel fuel s) (fun '(l, s) => Ok (PList l, s)))) by auto.
    destruct (c =? 93); [exact I|apply Q]. }
  cbn [scan_once]. replace (c =? 123) with false by lia. replace (c =? 91) with false by lia.
  destruct (c =? 34); [apply values_bind; [apply values_str|]; intros []; exact I|].
  destruct (c =? 110); [apply values_bind; [apply values_expect|]; intros; exact I|]. destruct (c =? 116); [apply values_bind; [apply values_expect|]; intros; exact I|].
  destruct (c =? 102); [apply values_bind; [apply values_expect|]; intros; exact I|]. apply values_bind; [apply values_int|]. intros []. exact I.
Qed.
Theorem loads_other s : (forall v, ~ json_text s v) -> loads s = Err EValue.
Proof.
  intros N. pose proof (loads_fuel s) as F. assert (V : values (loads s)).
  { unfold loads. apply values_bind; [apply values_once|]. intros [v t]. destruct (ws t); [exact I|left; reflexivity]. }
  destruct (loads s) as [v|e] eqn:E; [exfalso; exact (N v (loads_sound s v E))|]. cbn [values] in V. destruct V as [->| ->]; [reflexivity|congruence].
Qed.
