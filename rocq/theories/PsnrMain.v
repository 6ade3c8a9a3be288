(** What the ratios of pictures tell. *)
From Coq Require Import String Lia ZifyBool ZifyNat.
From Verif Require Import Base BaseProofs GsfPrim CogEnums VideoLayout LayoutSpec PatternSpec JsonProofs PyValue GrainObj GrainCopySpec
  NpView NpSpec NpGrainProofs NpAudio NpAudioSpec Psnr PsnrSpec PsnrProofs.
Local Open Scope list_scope.

(** ** The ratio and the squared differences. *)
Lemma psnr_inf peak count noise v : count <> 0 -> is_psnr peak count noise v -> (v = PvInf <-> noise = 0).
Proof.
  intros C (_ & A & B). split; [|exact (A C)]. intros ->. destruct (Z.eq_dec noise 0) as [E|E]; [exact E|]. destruct (B C E) as (n & d & K & _). discriminate K.
Qed.
Lemma psnr_order peak count noise noise' v v' : 0 < count -> peak <> 0 -> 0 <= noise -> 0 <= noise' -> is_psnr peak count noise v -> is_psnr peak count noise' v' ->
  (no_worse v v' <-> noise <= noise').
Proof.
  intros C P N N' (_ & A & B) (_ & A' & B'). specialize (A ltac:(lia)). specialize (B ltac:(lia)). specialize (A' ltac:(lia)). specialize (B' ltac:(lia)).
  destruct (Z.eq_dec noise 0) as [E|E], (Z.eq_dec noise' 0) as [E'|E'].
  - rewrite (A E), (A' E'). cbn [no_worse]. lia.
  - rewrite (A E). destruct (B' E') as (n & d & -> & _). cbn [no_worse]. lia.
  - rewrite (A' E'). destruct (B E) as (n & d & -> & _). cbn [no_worse]. lia.
  - destruct (B E) as (n & d & -> & N0 & D0 & Q). destruct (B' E') as (n' & d' & -> & N1 & D1 & Q'). cbn [no_worse].
    assert (K : 0 < peak * peak * count) by (apply Z.mul_pos_pos; [|lia]; nia). set (k := peak * peak * count) in *. clearbody k. clear - K N N' E E' N0 D0 N1 D1 Q Q'.
    assert (X : n * d' * noise * noise' = k * d * d' * noise') by (replace (n * d' * noise * noise') with (n * noise * d' * noise') by ring; rewrite Q; ring).
    assert (X' : n' * d * noise * noise' = k * d * d' * noise) by (replace (n' * d * noise * noise') with (n' * noise' * d * noise) by ring; rewrite Q'; ring).
    assert (Y : 0 < noise * noise') by nia. assert (Y' : 0 < k * d * d') by (apply Z.mul_pos_pos; [nia|lia]). set (q := k * d * d') in *. set (p := noise * noise') in *.
    replace (n * d' * noise * noise') with (n * d' * p) in X by (unfold p; ring). replace (n' * d * noise * noise') with (n' * d * p) in X' by (unfold p; ring).
    set (u := n * d') in *. set (u' := n' * d) in *. clearbody p q u u'. clear - X X' Y Y'. split; intros H; nia.
Qed.

Lemma sum_nonneg n f : (forall i, 0 <= i < n -> 0 <= f i) -> 0 <= sum n f.
Proof.
  intros H. unfold sum. assert (X : Forall (fun i => 0 <= f i) (between 0 n)).
  { apply Forall_forall. intros i I. unfold between in I. apply in_map_iff in I as (m & <- & M). apply in_seq in M. apply H. lia. }
  induction X as [|i l X _ IH]; cbn [map fold_right]; [lia|]. apply Z.add_nonneg_nonneg; assumption.
Qed.
Lemma sum_zero n f : (forall i, 0 <= i < n -> 0 <= f i) -> (sum n f = 0 <-> forall i, 0 <= i < n -> f i = 0).
Proof.
  intros H. unfold sum. assert (X : forall i, In i (between 0 n) <-> 0 <= i < n).
  { intros i. unfold between. split; intros I; [apply in_map_iff in I as (m & <- & M); apply in_seq in M; lia|]. apply in_map_iff. exists (Z.to_nat i). split; [lia|]. apply in_seq. lia. }
  assert (Y : forall l, (forall i, In i l -> 0 <= f i) -> 0 <= fold_right Z.add 0 (map f l) /\ (fold_right Z.add 0 (map f l) = 0 <-> forall i, In i l -> f i = 0)).
  { induction l as [|i l IH]; intros L; cbn [map fold_right]; [split; [lia|split; [intros _ j []|reflexivity]]|].
    destruct (IH (fun j J => L j (or_intror J))) as [A B]. pose proof (L i (or_introl eq_refl)). split; [lia|]. split.
    - intros E j [<-|J]; [lia|]. apply B; [lia|exact J].
    - intros Z0. rewrite (Z0 i (or_introl eq_refl)). apply B. intros j J. exact (Z0 j (or_intror J)). }
  destruct (Y (between 0 n)) as [_ B]; [intros i I; apply H, X, I|]. rewrite B. split; intros Q i I; apply Q, X, I.
Qed.
Lemma squares_nonneg k w h a b n n' : 0 <= squares k w h a b n n'.
Proof. apply sum_nonneg. intros y _. apply sum_nonneg. intros x _. apply Z.square_nonneg. Qed.
Lemma squares_zero k w h a b n n' : squares k w h a b n n' = 0 <-> forall x y, 0 <= x < comp_w k n w -> 0 <= y < comp_h k n h -> sample a n x y = sample b n' x y.
Proof.
  unfold squares. rewrite sum_zero; [|intros y _; apply sum_nonneg; intros x _; apply Z.square_nonneg]. split.
  - intros H x y X Y. specialize (H y Y). rewrite sum_zero in H; [|intros i _; apply Z.square_nonneg]. specialize (H x X). apply Z.mul_eq_0 in H. lia.
  - intros H y Y. rewrite sum_zero; [|intros i _; apply Z.square_nonneg]. intros x X. rewrite (H x y X Y), Z.sub_diag. reflexivity.
Qed.

Lemma order_names f k n : In (f, k) kinds -> (In n (in_order f k) <-> In n (names (k_model k))).
Proof.
  intros I. unfold in_order. destruct (existsb (Z.eqb f) [BGRx; xBGR]) eqn:E; [|reflexivity].
  assert (Y : forallb (fun fk => negb (existsb (Z.eqb (fst fk)) [BGRx; xBGR]) || match k_model (snd fk) with MRgb => true | MYuv => false end) kinds = true) by (vm_compute; reflexivity).
  rewrite forallb_forall in Y. specialize (Y _ I). cbn [fst snd] in Y. rewrite E in Y. cbn [negb orb] in Y. destruct (k_model k); [discriminate Y|]. cbn [names In]. tauto.
Qed.
Lemma comp_pos f k n w h : In (f, k) kinds -> 0 < w / k_hs k -> 0 < h / k_vs k -> 0 < comp_w k n w * comp_h k n h.
Proof.
  intros I W H. destruct (depth_bits f k I) as (_ & _ & _ & HP & VP). assert (0 < w /\ 0 < h).
  { clear - W H HP VP. split; [destruct (Z_lt_le_dec 0 w) as [L|L]; [exact L|]; pose proof (Z.div_le_mono w 0 (k_hs k) HP L) as M | destruct (Z_lt_le_dec 0 h) as [L|L]; [exact L|]; pose proof (Z.div_le_mono h 0 (k_vs k) VP L) as M]; rewrite Z.div_0_l in M by lia; lia. }
  unfold comp_w, comp_h. destruct n; apply Z.mul_pos_pos; lia.
Qed.
Lemma forall2_combine_same {A B} (P : A * A -> B -> Prop) (l : list A) vs : Forall2 P (combine l l) vs -> Forall2 (fun n v => P (n, n) v) l vs.
Proof. revert vs. induction l as [|n l IH]; intros vs F; cbn [combine] in F; inversion F; subst; constructor; auto. Qed.

(** Infinite exactly for pictures with the same samples. *)
Theorem video_same now rwa rwb max a b f f' k k' w h d d' : video_of a f w h d -> video_of b f' w h d' -> In (f, k) kinds -> In (f', k') kinds ->
  k_hs k = k_hs k' -> k_vs k = k_vs k' -> in_order f k = in_order f' k' -> 0 < w / k_hs k -> 0 < h / k_vs k -> max <> Some 0 ->
  exists vs, compute_psnr now rwa rwb max a b = (a, b, Ok vs) /\ List.length vs = 3%nat /\
    (Forall (eq PvInf) vs <->
     forall n x y, In n (names (k_model k)) -> 0 <= x < comp_w k n w -> 0 <= y < comp_h k n h -> sample (shown f w h d) n x y = sample (shown f' w h d') n x y).
Proof.
  intros VA VB I I' HS VS O W H MX.
  assert (W0 : 0 <= w /\ 0 <= h) by (pose proof (comp_pos f k CY w h I W H) as Q; destruct (depth_bits f k I) as (_ & _ & _ & HP & VP); clear - W H HP VP;
    split; [destruct (Z_lt_le_dec w 0) as [L|L]; [|exact L]; pose proof (Z.div_le_mono w 0 (k_hs k) HP ltac:(lia)) as M | destruct (Z_lt_le_dec h 0) as [L|L]; [|exact L]; pose proof (Z.div_le_mono h 0 (k_vs k) VP ltac:(lia)) as M]; rewrite Z.div_0_l in M by lia; lia).
  destruct (video_ratio now rwa rwb max a b f f' k k' w h d d' VA VB I I' HS VS (proj1 W0) (proj2 W0) MX) as (vs & E & F). exists vs. split; [exact E|]. rewrite <- O in F. apply forall2_combine_same in F. cbn [fst snd] in F.
  split.
  { destruct (order_index f k I) as (x & y & z & Q & _). rewrite Q in F. inversion F; subst. inversion H4; subst. inversion H6; subst. inversion H8; subst. reflexivity. }
  transitivity (forall n, In n (in_order f k) -> squares k w h (shown f w h d) (shown f' w h d') n n = 0).
  - clear - F I W H. induction F as [|n v l vs Q F IH].
    + split; [intros _ n []|constructor].
    + pose proof (comp_pos f k n w h I W H) as C. assert (C0 : comp_w k n w * comp_h k n h <> 0) by (clear - C; lia). pose proof (psnr_inf _ _ _ _ C0 Q) as X. split.
      * intros G m [<-|M]; [apply X; inversion G; subst; reflexivity|]. apply IH; [inversion G; assumption|exact M].
      * intros G. constructor; [symmetry; apply X, G; left; reflexivity|]. apply IH. intros m M. apply G. right. exact M.
  - split.
    + intros G n x y N X Y. apply (order_names f k n I) in N. exact (proj1 (squares_zero k w h _ _ n n) (G n N) x y X Y).
    + intros G n N. apply (order_names f k n I) in N. apply squares_zero. intros x y X Y. exact (G n x y N X Y).
Qed.

(** Two pictures measured against a third: the better ratio is that of the smaller sum of squares, whatever the peak. *)
Theorem video_order now rwa rwb max r a b f f' k k' w h dr da db : video_of r f w h dr -> video_of a f' w h da -> video_of b f' w h db -> In (f, k) kinds -> In (f', k') kinds ->
  k_hs k = k_hs k' -> k_vs k = k_vs k' -> 0 < w / k_hs k -> 0 < h / k_vs k -> 0 <= w -> 0 <= h -> max <> Some 0 ->
  exists vs vs', compute_psnr now rwa rwb max r a = (r, a, Ok vs) /\ compute_psnr now rwa rwb max r b = (r, b, Ok vs') /\
    forall i v v' n n', nth_error vs i = Some v -> nth_error vs' i = Some v' -> nth_error (in_order f k) i = Some n -> nth_error (in_order f' k') i = Some n' ->
      (no_worse v v' <-> squares k w h (shown f w h dr) (shown f' w h da) n n' <= squares k w h (shown f w h dr) (shown f' w h db) n n').
Proof.
  intros VR VA VB I I' HS VS W H W0 H0 MX.
  destruct (video_ratio now rwa rwb max r a f f' k k' w h dr da VR VA I I' HS VS W0 H0 MX) as (vs & E & F). destruct (video_ratio now rwa rwb max r b f f' k k' w h dr db VR VB I I' HS VS W0 H0 MX) as (vs' & E' & F').
  exists vs, vs'. split; [exact E|]. split; [exact E'|]. intros i v v' n n' N N' M M'.
  assert (PK : peak_or max (2 ^ k_depth k - 1) <> 0).
  { unfold peak_or. destruct max as [m|]; [intros ->; exact (MX eq_refl)|]. destruct (depth_bits f k I) as (_ & _ & DP & _). pose proof (Z.pow_gt_1 2 (k_depth k) ltac:(lia)). lia. }
  assert (X : forall (l l' : list cname) ws ws' (P P' : cname * cname -> pval -> Prop) j, Forall2 P (combine l l') ws -> Forall2 P' (combine l l') ws' -> nth_error ws j = Some v -> nth_error ws' j = Some v' -> nth_error l j = Some n -> nth_error l' j = Some n' -> P (n, n') v /\ P' (n, n') v').
  { clear. induction l as [|x l IH]; intros l' ws ws' P P' j F F' A A' B B'; [destruct j; discriminate B|]. destruct l' as [|x' l']; [destruct j; discriminate B'|]. cbn [combine] in F, F'. inversion F as [|? ? ? ? F1 F2]; subst. inversion F' as [|? ? ? ? F1' F2']; subst.
    destruct j as [|j]; cbn [nth_error] in A, A', B, B'; [split; congruence|]. exact (IH l' _ _ P P' j F2 F2' A A' B B'). }
  destruct (X _ _ _ _ _ _ i F F' N N' M M') as [Q Q']. cbn [fst snd] in Q, Q'. pose proof (comp_pos f k n w h I W H) as CP.
  exact (psnr_order _ _ _ _ _ _ CP PK (squares_nonneg _ _ _ _ _ _ _) (squares_nonneg _ _ _ _ _ _ _) Q Q').
Qed.

(** The order of the two pictures does not matter, if they have one depth or the peak is given. *)
Lemma squares_sym f k k' w h a b n n' j : In (f, k) kinds -> k_hs k = k_hs k' -> k_vs k = k_vs k' -> comp_w k n w = j -> comp_w k n w = comp_w k' n' w -> comp_h k n h = comp_h k' n' h -> squares k w h a b n n' = squares k' w h b a n' n.
Proof. intros _ _ _ _ EW EH. unfold squares. rewrite <- EW, <- EH. apply sum_ext. intros y _. apply sum_ext. intros x _. ring. Qed.
Theorem video_swapped now rwa rwb max a b f f' k k' w h d d' : video_of a f w h d -> video_of b f' w h d' -> In (f, k) kinds -> In (f', k') kinds ->
  k_hs k = k_hs k' -> k_vs k = k_vs k' -> 0 <= w -> 0 <= h -> max <> Some 0 -> max <> None \/ k_depth k = k_depth k' ->
  exists vs vs', compute_psnr now rwa rwb max a b = (a, b, Ok vs) /\ compute_psnr now rwb rwa max b a = (b, a, Ok vs') /\ Forall2 (fun v v' => no_worse v v' /\ no_worse v' v) vs vs'.
Proof.
  intros VA VB I I' HS VS W H MX PE.
  destruct (video_ratio now rwa rwb max a b f f' k k' w h d d' VA VB I I' HS VS W H MX) as (vs & E & F). destruct (video_ratio now rwb rwa max b a f' f k' k w h d' d VB VA I' I (eq_sym HS) (eq_sym VS) W H MX) as (vs' & E' & F').
  exists vs, vs'. split; [exact E|]. split; [exact E'|].
  assert (PK : peak_or max (2 ^ k_depth k - 1) <> 0).
  { unfold peak_or. destruct max as [m|]; [intros ->; exact (MX eq_refl)|]. destruct (depth_bits f k I) as (_ & _ & DP & _). pose proof (Z.pow_gt_1 2 (k_depth k) ltac:(lia)). lia. }
  assert (PS : peak_or max (2 ^ k_depth k' - 1) = peak_or max (2 ^ k_depth k - 1)) by (unfold peak_or; destruct max; [reflexivity|]; destruct PE as [PE|PE]; [destruct (PE eq_refl)|rewrite PE; reflexivity]).
  rewrite PS in F'. set (peak := peak_or max (2 ^ k_depth k - 1)) in *. clearbody peak.
  destruct (order_index f k I) as (x & y & z & O & _). destruct (order_index f' k' I') as (x' & y' & z' & O' & _).
  assert (SZ : forall n n', In (n, n') (combine (in_order f k) (in_order f' k')) -> comp_w k n w = comp_w k' n' w /\ comp_h k n h = comp_h k' n' h).
  { intros n n' N. pose proof (order_sizes f k x y z I O w) as (S0 & _ & S1 & _ & S2 & _). pose proof (order_sizes f k x y z I O h) as (_ & T0 & _ & T1 & _ & T2).
    pose proof (order_sizes f' k' x' y' z' I' O' w) as (S0' & _ & S1' & _ & S2' & _). pose proof (order_sizes f' k' x' y' z' I' O' h) as (_ & T0' & _ & T1' & _ & T2').
    rewrite O, O' in N. cbn [combine In] in N. destruct N as [N|[N|[N|[]]]]; apply pair_equal_spec in N as [<- <-]; split; congruence. }
  assert (NN : forall n, 0 <= comp_w k n w * comp_h k n h).
  { intros n. destruct (depth_bits f k I) as (_ & _ & _ & HP & VP). apply Z.mul_nonneg_nonneg; unfold comp_w, comp_h; destruct n; try assumption; apply Z.div_pos; assumption. }
  clear - F F' SZ PK NN I HS VS. revert vs vs' F F' SZ. generalize (in_order f' k') as l'. induction (in_order f k) as [|n l IH]; intros l' vs vs' F F' SZ.
  - cbn [combine] in F. destruct l'; cbn [combine] in F'; inversion F; inversion F'; constructor.
  - destruct l' as [|n' l']; cbn [combine] in F, F'; inversion F as [|? v0 ? ? F1 F2 G1 G2]; inversion F' as [|? v1 ? ? F1' F2' G1' G2']; subst; constructor.
    + cbn [fst snd] in *. destruct (SZ n n' (or_introl eq_refl)) as [EW EH]. rewrite <- EW, <- EH in F1'. rewrite (squares_sym f k k' w h _ _ n n' _ I HS VS eq_refl EW EH) in F1.
      set (c := comp_w k n w * comp_h k n h) in *. pose proof (NN n) as C. fold c in C. set (s := squares k' w h _ _ n' n) in *. pose proof (squares_nonneg k' w h (shown f' w h d') (shown f w h d) n' n) as S. fold s in S. clearbody c s.
      destruct (Z.eq_dec c 0) as [->|C0].
      * rewrite (proj1 F1 eq_refl), (proj1 F1' eq_refl). split; exact Logic.I.
      * split; [apply (psnr_order peak c s s v0 v1)|apply (psnr_order peak c s s v1 v0)]; try assumption; lia.
    + apply (IH l'); try assumption. intros m m' M. apply SZ. right. exact M.
Qed.

(** Nothing else is measured, and the grains stay as they are. *)
Theorem psnr_refused now rwa rwb max a b ta tb : getattr a $"grain_type" = Ok ta -> getattr b $"grain_type" = Ok tb ->
  (py_eq ta tb = false \/ ta <> PStr $"video" /\ ta <> PStr $"audio") -> compute_psnr now rwa rwb max a b = (a, b, Err EAttr).
Proof.
  intros A B X. unfold compute_psnr. rewrite A, B. cbn [rbind]. destruct (py_eq ta tb) eqn:E; cbn [negb]; [|reflexivity]. destruct X as [X|[X Y]]; [discriminate X|].
  assert (T : forall s, ta <> PStr s -> type_is ta s = false).
  { intros s N. unfold type_is. destruct ta as [| | | |s0| | | | | |]; try reflexivity. cbn [py_eq]. destruct (zlist_eqb s0 s) eqn:Q; [|reflexivity]. apply zlist_eqb_eq in Q. subst s0. destruct (N eq_refl). }
  rewrite (T _ X), (T _ Y). reflexivity.
Qed.
