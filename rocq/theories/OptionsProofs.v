(** What options of comparisons mean. *)
From Coq Require Import String Lia ZifyBool.
From Verif Require Import Base BaseProofs JsonProofs PyValue PyValueProofs GrainObj Compare CompareSpec CompareLaws Options OptionsSpec.
Local Open Scope list_scope.

Lemma holds_relation c x y : holds c x y = true <-> relation c x y.
Proof. destruct c; cbn [holds relation]; lia. Qed.
Lemma holds_eq c d x y : (relation c x y <-> relation d x y) -> holds c x y = holds d x y.
Proof. intros H. rewrite <- !holds_relation in H. destruct (holds c x y), (holds d x y); intuition congruence. Qed.
Lemma plain_attribute v n : plain_name n -> attribute v n =
  match v with
  | VExclude => Ok (VOption (PExclude (path n))) | VInclude => Ok (VOption (PInclude (path n)))
  | VExpect p => Ok (VExpect (p ++ $"." ++ n)) | VPsnr p => Ok (VPsnr (p ++ $"." ++ n))
  | v => attribute v n end.
Proof.
  intros [A B]. assert (E : zlist_eqb n $"path" = false) by (apply zlist_eqb_neq; exact A).
  assert (D : dunder n = false). { destruct n as [|c [|d n]]; [reflexivity|reflexivity|]. cbn [dunder]. destruct ((c =? 95) && (d =? 95)) eqn:X; [|reflexivity]. destruct (B n). f_equal; [lia|f_equal; lia]. }
  unfold attribute. rewrite D, E. destruct v; reflexivity.
Qed.

(** The option that something wanted becomes. *)
Definition option_of (w : want) : copt :=
  match w with
  | Ignore n => OExclude (path n) | Regard n => OInclude (path n)
  | Differ n c z => OExpect (path n) (fun d => holds c d z) | Quality c l => OPsnr (path $"data") (psnr_says c l) end.
Definition popt_of (w : want) : popt :=
  match w with Ignore n => PExclude (path n) | Regard n => PInclude (path n) | Differ n c z => PExpect (path n) (MCmp c z) | Quality c l => PPsnr (path $"data") c l end.
Lemma reversed_right c d : (forall x y, relation d x y <-> relation c y x) -> reversed d = c.
Proof.
  intros H. pose proof (H 0 1) as A. pose proof (H 1 0) as B. pose proof (H 0 0) as C. destruct c, d; cbn [relation reversed] in *; try reflexivity; exfalso; lia.
Qed.
Lemma written_evals w e : written w e -> eval e = Ok (VOption (popt_of w)).
Proof.
  destruct 1 as [n P| |n P|n c z P|n c d z P R|c l A B|c d l A B R]; cbn [eval rbind named].
  - rewrite (plain_attribute _ _ P). reflexivity.
  - reflexivity.
  - rewrite (plain_attribute _ _ P). reflexivity.
  - rewrite (plain_attribute _ _ P). reflexivity.
  - rewrite (plain_attribute _ _ P). cbn [rbind compared]. rewrite (reversed_right c d R). reflexivity.
  - destruct c; try reflexivity; congruence.
  - pose proof (reversed_right c d R) as X. subst c. destruct d; try reflexivity; cbn [reversed] in *; congruence.
Qed.
Lemma all_written ws es : Forall2 written ws es -> arguments es = Ok (map popt_of ws) /\ all_work (map popt_of ws) = Some (map option_of ws).
Proof.
  induction 1 as [|w e ws es W F [A B]]; [split; reflexivity|]. cbn [arguments map all_work]. rewrite (written_evals w e W). cbn [rbind]. rewrite A. cbn [rbind taken]. split; [reflexivity|]. rewrite B. destruct w; reflexivity.
Qed.
Lemma path_eq n m : path n = path m <-> n = m.
Proof. unfold path. split; [intros H; apply app_inv_head in H; exact H|intros ->; reflexivity]. Qed.
Lemma psnr_right c : forall limits x, psnr_says c limits x = true <-> forall i v l, nth_error x i = Some v -> nth_error limits i = Some (Some l) -> relation c v l.
Proof.
  induction limits as [|l limits IH]; intros [|v x]; cbn [psnr_says]; try (split; [intros _ [|i] ? ? A B; first [discriminate A|discriminate B]|reflexivity]).
  - split.
    + intros H i a b A B. destruct i as [|i]; cbn [nth_error] in A, B.
      * injection A as <-. injection B as ->. apply andb_prop in H as [H _]. apply holds_relation. exact H.
      * apply (proj1 (IH x)) with i; [|exact A|exact B]. destruct l; [apply andb_prop in H; tauto|exact H].
    + intros H. assert (T : psnr_says c limits x = true) by (apply IH; intros i a b A B; exact (H (S i) a b A B)). destruct l as [l|]; [|exact T]. rewrite T, Bool.andb_true_r. apply holds_relation. exact (H 0%nat v l eq_refl eq_refl).
Qed.
Lemma wants_mean ws : mean (map option_of ws) ws.
Proof.
  constructor.
  - intros n. split.
    + intros (p & I & E). apply in_map_iff in I as (w & W & I). destruct w as [m|m|m c z|c l]; try discriminate. cbn [option_of] in W. assert (P : p = path m) by congruence. subst p. exists m. split; [exact I|]. destruct E as [E|E]; [left; exact (proj1 (path_eq _ _) E)|right; exact E].
    + intros (m & I & E). exists (path m). split; [apply in_map_iff; exists (Ignore m); split; [reflexivity|exact I]|]. destruct E as [-> |E]; [left; reflexivity|right; exact E].
  - intros id N (p & I & E). apply in_map_iff in I as (w & W & I). destruct w as [m|m|m c z|c l]; try discriminate. cbn [option_of] in W. assert (P : p = path m) by congruence. subst p.
    destruct E as [E|E]; [exact (N m (eq_sym E))|]. inversion E; subst id; [apply (N $"src_id")|apply (N $"cog_frame_format")|apply (N $"cog_audio_format")|apply (N $"cog_frame_layout")]; reflexivity.
  - intros n. split.
    + intros I. apply in_map_iff in I as (w & W & I). destruct w as [m|m|m c z|c l]; try discriminate. cbn [option_of] in W. assert (P : path m = path n) by congruence. apply (proj1 (path_eq _ _)) in P. subst m. exact I.
    + intros I. apply in_map_iff. exists (Regard n). split; [reflexivity|exact I].
  - assert (K : forall n m, In (OExpect (path n) m) (map option_of ws) <-> exists c z, In (Differ n c z) ws /\ m = fun d => holds c d z).
    { intros n m. split.
      - intros I. apply in_map_iff in I as (w & W & I). destruct w as [k|k|k c z|c l]; try discriminate. cbn [option_of] in W. assert (P : path k = path n) by congruence. apply (proj1 (path_eq _ _)) in P. subst k. exists c, z. split; [exact I|congruence].
      - intros (c & z & I & ->). apply in_map_iff. exists (Differ n c z). split; [reflexivity|exact I]. }
    intros n d. unfold expected, as_wanted. split; intros [A B]; split.
    + intros c z I. apply holds_relation. apply (A (fun d => holds c d z)). apply K. exists c, z. split; [exact I|reflexivity].
    + intros H. apply B. intros m I. apply K in I as (c & z & I & _). exact (H c z I).
    + intros m I. apply K in I as (c & z & I & ->). apply holds_relation. exact (A c z I).
    + intros H. apply B. intros c z I. apply (H (fun d => holds c d z)). apply K. exists c, z. split; [exact I|reflexivity].
  - split.
    + intros (m & I). apply in_map_iff in I as (w & W & I). destruct w as [k|k|k c z|c l]; try discriminate. exists c, l. exact I.
    + intros (c & l & I). exists (psnr_says c l). apply in_map_iff. exists (Quality c l). split; [reflexivity|exact I].
  - intros x. split.
    + intros H c l I. apply psnr_right. apply H. apply in_map_iff. exists (Quality c l). split; [reflexivity|exact I].
    + intros H m I. apply in_map_iff in I as (w & W & I). destruct w as [k|k|k c z|c l]; try discriminate. cbn [option_of] in W. assert (P : m = psnr_says c l) by congruence. subst m. apply psnr_right. exact (H c l I).
Qed.
Theorem wanted psnr ws es a b : Forall2 written ws es -> exists cs, mean cs ws /\ compare_with psnr es a b = compare_grain psnr cs a b.
Proof.
  intros F. destruct (all_written ws es F) as [A B]. exists (map option_of ws). split; [apply wants_mean|]. unfold compare_with. rewrite A. cbn [rbind]. rewrite B. reflexivity.
Qed.
Theorem wanted_verdict psnr ws es a b r : Forall2 written ws es -> stored_ok a -> stored_ok b -> compare_with psnr es a b = Ok r ->
  exists cs, mean cs ws /\ (r_equal r = true <-> grains_agree psnr cs a b).
Proof. intros F SA SB E. destruct (wanted psnr ws es a b F) as (cs & M & C). exists cs. split; [exact M|]. rewrite C in E. exact (grain_agree psnr cs a b r SA SB E). Qed.

(** ** What goes wrong. *)
Theorem chain_last p c d z w : plain_name p -> eval (XChain (XNum z) c (XAttr (XName NExpected) p) d (XNum w)) = eval (XCmp d (XAttr (XName NExpected) p) (XNum w)).
Proof. intros P. cbn [eval rbind named]. rewrite (plain_attribute _ _ P). reflexivity. Qed.
Theorem and_last e f o : eval e = Ok (VOption o) -> eval (XAnd e f) = eval f /\ eval (XOr e f) = Ok (VOption o) /\ eval (XNot e) = Ok (VBool false).
Proof. intros E. cbn [eval]. rewrite E. cbn [rbind truth negb]. auto. Qed.
Theorem bits_fail e f o : eval e = Ok (VOption o) -> (exists v, eval f = Ok v) -> eval (XBitAnd e f) = Err EType /\ eval (XBitOr e f) = Err EType.
Proof. intros E (v & F). cbn [eval]. rewrite E, F. cbn [rbind combined]. auto. Qed.
Theorem bits_useless e f p o v : eval e = Ok (VExpect p) -> eval f = Ok v -> eval (XBitAnd e f) = Ok (VOption o) -> exists m, o = PExpect p m /\ forall d, says m d = Err EType.
Proof.
  intros E F H. cbn [eval] in H. rewrite E, F in H. cbn [rbind combined] in H. destruct v as [| | | |q| | | |]; try discriminate. destruct q as [q|q|q m|q c l]; try discriminate. destruct (zlist_eqb q p); [|discriminate].
  apply Ok_eq in H. exists MNone. split; [congruence|reflexivity].
Qed.

(** ** The order, and repetitions, do not matter. *)
Definition alike (cs cs' : list copt) : Prop := forall o, In o cs <-> In o cs'.
Lemma waived_alike cs cs' id : alike cs cs' -> waived cs id -> waived cs' id.
Proof. intros A (p & I & E). exists p. split; [apply A; exact I|exact E]. Qed.
Lemma expected_alike cs cs' id d : alike cs cs' -> expected cs id d -> expected cs' id d.
Proof. intros A [X Y]. split; [intros m I; apply X, A, I|intros H; apply Y; intros m I; apply (H m), A, I]. Qed.
Lemma agree_alike cs cs' a b n : alike cs cs' -> agree cs a b n -> agree cs' a b n.
Proof. intros A [W|S]; [left; exact (waived_alike _ _ _ A W)|right; exact S]. Qed.
Lemma times_alike cs cs' a b n : alike cs cs' -> times_agree cs a b n -> times_agree cs' a b n.
Proof. intros A [W|(s & t & X & Y & E)]; [left; exact (waived_alike _ _ _ A W)|right; exists s, t; split; [exact X|split; [exact Y|exact (expected_alike _ _ _ _ A E)]]]. Qed.
Lemma lists_alike {A} cs cs' (f f' : str -> A -> A -> Prop) id l l' : alike cs cs' -> (forall i x y, f i x y -> f' i x y) -> lists_agree cs f id l l' -> lists_agree cs' f' id l l'.
Proof.
  intros K F [X Y]. split; [destruct X as [X|X]; [left; exact (waived_alike _ _ _ K X)|right; exact X]|]. intros i H. destruct (Y i H) as [W|(x & y & P & Q & R)]; [left; exact (waived_alike _ _ _ K W)|right; exists x, y; split; [exact P|split; [exact Q|exact (F _ _ _ R)]]].
Qed.
Lemma dicts_alike cs cs' id d e : alike cs cs' -> dicts_agree cs id d e -> dicts_agree cs' id d e.
Proof. intros K H k N. destruct (H k N) as [W|E]; [left; exact (waived_alike _ _ _ K W)|right; exact E]. Qed.
Lemma data_alike psnr w k cs cs' a b : alike cs cs' -> data_agree psnr w k cs a b -> data_agree psnr w k cs' a b.
Proof.
  intros K [W|[(P & (m & I) & v & V & M)|(P & D)]]; [left; exact (waived_alike _ _ _ K W)|right; left|right; right].
  - split; [exact P|]. split; [exists m; apply K; exact I|]. exists v. split; [exact V|]. intros m' I'. apply M, K, I'.
  - split; [intros E m I; apply (P E m), K, I|exact D].
Qed.
Lemma format_alike psnr w name k cs cs' a b : alike cs cs' -> data_if_format psnr w name k cs a b -> data_if_format psnr w name k cs' a b.
Proof. intros K H f A B. exact (data_alike _ _ _ _ _ _ _ K (H f A B)). Qed.
Lemma type_alike psnr t cs cs' a b : alike cs cs' -> same_type psnr t cs a b -> same_type psnr t cs' a b.
Proof.
  intros K [E A CA V CV O]. constructor.
  - intros T. destruct (E T) as (X & Y & Z). split; [exact (agree_alike _ _ _ _ _ K X)|]. split; [exact (agree_alike _ _ _ _ _ K Y)|]. destruct Z as [Z|(d & e & P & Q & L)]; [left; exact (waived_alike _ _ _ K Z)|right].
    exists d, e. split; [exact P|]. split; [exact Q|]. exact (lists_alike _ _ _ _ _ _ _ K (fun i x y => dicts_alike _ _ i x y K) L).
  - intros T. destruct (A T) as [X Y]. split; [intros n I; exact (agree_alike _ _ _ _ _ K (X n I))|exact (format_alike _ _ _ _ _ _ _ _ K Y)].
  - intros T. destruct (CA T) as [X Y]. split; [intros n I; exact (agree_alike _ _ _ _ _ K (X n I))|exact (format_alike _ _ _ _ _ _ _ _ K Y)].
  - intros T. destruct (V T) as [X Y]. split; [intros n I; exact (agree_alike _ _ _ _ _ K (X n I))|exact (format_alike _ _ _ _ _ _ _ _ K Y)].
  - intros T. destruct (CV T) as (X & Y & Z). split; [intros n I; destruct (X n I) as [W|W]; [left; exact (waived_alike _ _ _ K W)|right; exact W]|]. split; [|exact (format_alike _ _ _ _ _ _ _ _ K Z)].
    destruct Y as [W|(x & y & P & Q & L)]; [left; exact (waived_alike _ _ _ K W)|right]. exists x, y. split; [exact P|]. split; [exact Q|]. exact (lists_alike _ _ _ _ _ _ _ K (fun i x y => expected_alike _ _ i (x - y) K) L).
  - intros T. exact (data_alike _ _ _ _ _ _ _ K (O T)).
Qed.
Lemma grains_alike psnr cs cs' a b : alike cs cs' -> grains_agree psnr cs a b -> grains_agree psnr cs' a b.
Proof.
  intros K [P L T C B Y]. constructor.
  - intros n I. exact (agree_alike _ _ _ _ _ K (P n I)).
  - destruct L as [L|(X & Z & n & I & W)]; [left; exact (agree_alike _ _ _ _ _ K L)|right]. split; [exact X|]. split; [exact Z|]. exists n. split; [exact I|exact (waived_alike _ _ _ K W)].
  - intros n I. exact (times_alike _ _ _ _ _ K (T n I)).
  - intros I. exact (times_alike _ _ _ _ _ K (C (proj2 (K _) I))).
  - destruct B as [W|(d & e & X & Z & Q)]; [left; exact (waived_alike _ _ _ K W)|right]. exists d, e. split; [exact X|]. split; [exact Z|]. exact (lists_alike _ _ _ _ _ _ _ K (fun i x y => dicts_alike _ _ i x y K) Q).
  - intros t u X Z E. exact (type_alike _ _ _ _ _ _ K (Y t u X Z E)).
Qed.
Lemma can_data_alike psnr w u cs cs' a b : alike cs cs' -> can_data psnr w u cs a b -> can_data psnr w u cs' a b.
Proof.
  intros K [X Y]. split.
  - intros E (m & I). destruct (X E (ex_intro _ m (proj2 (K _) I))) as [W|P]; [left; exact (waived_alike _ _ _ K W)|right; exact P].
  - intros H. apply Y. intros E m I. apply (H E m), K, I.
Qed.
Lemma can_format_alike psnr w name u cs cs' a b : alike cs cs' -> can_if_format psnr w name u cs a b -> can_if_format psnr w name u cs' a b.
Proof. intros K H f A B. exact (can_data_alike _ _ _ _ _ _ _ K (H f A B)). Qed.
Lemma can_alike psnr cs cs' a b : alike cs cs' -> can_compare psnr cs a b -> can_compare psnr cs' a b.
Proof.
  intros K [P T L Y KL KE]. constructor; [exact P|exact T|exact L| |exact KL|exact KE]. intros t u A B E. destruct (Y t u A B E) as [E1 E2 E3 E4 E5 E6]. constructor.
  - exact E1.
  - intros X. destruct (E2 X) as [U V]. split; [exact U|exact (can_format_alike _ _ _ _ _ _ _ _ K V)].
  - intros X. destruct (E3 X) as [U V]. split; [exact U|exact (can_format_alike _ _ _ _ _ _ _ _ K V)].
  - intros X. destruct (E4 X) as [U V]. split; [exact U|exact (can_format_alike _ _ _ _ _ _ _ _ K V)].
  - intros X. destruct (E5 X) as [U V]. split; [exact U|exact (can_format_alike _ _ _ _ _ _ _ _ K V)].
  - intros X. exact (can_data_alike _ _ _ _ _ _ _ K (E6 X)).
Qed.
Theorem any_order psnr ws es ws' es' a b r : Forall2 written ws es -> Forall2 written ws' es' -> (forall w, In w ws <-> In w ws') -> stored_ok a -> stored_ok b ->
  compare_with psnr es a b = Ok r -> exists r', compare_with psnr es' a b = Ok r' /\ r_equal r' = r_equal r.
Proof.
  intros F F' S SA SB E. destruct (all_written ws es F) as [A B]. destruct (all_written ws' es' F') as [A' B']. unfold compare_with in *. rewrite A, A' in *. cbn [rbind] in *. rewrite B, B' in *.
  assert (K : alike (map option_of ws) (map option_of ws')). { intros o. rewrite !in_map_iff. split; intros (w & W & I); exists w; (split; [exact W|apply S; exact I]). }
  assert (K' : alike (map option_of ws') (map option_of ws)) by (intros o; symmetry; apply K).
  destruct (proj2 (grain_total psnr (map option_of ws') a b)) as (r' & R').
  { apply (can_alike psnr (map option_of ws)); [exact K|]. apply grain_total. exists r. exact E. }
  exists r'. split; [exact R'|]. pose proof (grain_agree _ _ _ _ _ SA SB E) as G. pose proof (grain_agree _ _ _ _ _ SA SB R') as G'.
  pose proof (grains_alike psnr _ _ a b K) as M. pose proof (grains_alike psnr _ _ a b K') as M'. destruct (r_equal r), (r_equal r'); try reflexivity; intuition congruence.
Qed.

(** Options behind a condition, as Python takes conditions. *)
Theorem conditional psnr l e a b :
  compare_with psnr [XOr (XNums []) e] a b = compare_with psnr [e] a b /\ compare_with psnr [XAnd (XNums []) e] a b = Err EAttr /\
  (l <> [] -> compare_with psnr [XAnd (XNums l) e] a b = compare_with psnr [e] a b /\ compare_with psnr [XOr (XNums l) e] a b = Err EAttr).
Proof. split; [reflexivity|]. split; [reflexivity|]. intros N. destruct l; [destruct N; reflexivity|]. split; reflexivity. Qed.
(** Equality of a PSNR is looked at when it is written, not when grains are compared. *)
Theorem equal_chain psnr n l d e v a b : plain_name n -> eval e = Ok v ->
  compare_with psnr [XChain (XNums l) Eq (XAttr (XName NPsnr) n) d e] a b = Err EAttr /\
  compare_with psnr [XChain (XNums l) Ne (XAttr (XName NPsnr) n) d e] a b = compare_with psnr [XCmp d (XAttr (XName NPsnr) n) e] a b.
Proof.
  intros P E. assert (A : eval (XAttr (XName NPsnr) n) = Ok (VPsnr ($"{}" ++ $"." ++ n))).
  { cbn [eval rbind named]. rewrite (plain_attribute _ _ P). reflexivity. }
  unfold compare_with. cbn [arguments]. split.
  - change (eval (XChain (XNums l) Eq (XAttr (XName NPsnr) n) d e)) with
      (rbind (eval (XAttr (XName NPsnr) n)) (fun w => rbind (compared Eq (VNums l) w) (fun r => if truth r then rbind (eval e) (fun u => compared d w u) else Ok r))).
    rewrite A. reflexivity.
  - change (eval (XChain (XNums l) Ne (XAttr (XName NPsnr) n) d e)) with
      (rbind (eval (XAttr (XName NPsnr) n)) (fun w => rbind (compared Ne (VNums l) w) (fun r => if truth r then rbind (eval e) (fun u => compared d w u) else Ok r))).
    change (eval (XCmp d (XAttr (XName NPsnr) n) e)) with (rbind (eval (XAttr (XName NPsnr) n)) (fun v => rbind (eval e) (fun w => compared d v w))). rewrite A, E. reflexivity.
Qed.
(** Options that are compared with each other. *)
Theorem options_equal n m : plain_name n -> plain_name m ->
  (eval (XCmp Eq (XAttr (XName NExclude) n) (XAttr (XName NExclude) m)) = Ok (VBool true) <-> n = m) /\
  (eval (XCmp Eq (XAttr (XName NInclude) n) (XAttr (XName NInclude) m)) = Ok (VBool true) <-> n = m) /\
  eval (XCmp Eq (XAttr (XName NExclude) n) (XAttr (XName NInclude) m)) = Ok (VBool false).
Proof.
  intros P Q. cbn [eval rbind named]. rewrite !(plain_attribute _ _ P), !(plain_attribute _ _ Q). cbn [rbind compared].
  assert (K : Ok (VBool (zlist_eqb (path n) (path m))) = Ok (VBool true) <-> n = m).
  { rewrite <- (path_eq n m), <- zlist_eqb_eq. split; [intros H; injection H as H; exact H|intros ->; reflexivity]. }
  split; [exact K|]. split; [exact K|reflexivity].
Qed.
