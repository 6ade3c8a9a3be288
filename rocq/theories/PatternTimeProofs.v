(** Proofs about time-indexed generators. *)
From Verif Require Import Base BaseProofs NpView LayoutSpec PatternTime Tone PatternSpec.
From Coq Require Import Lia ZifyBool ZifyNat.
Ltac Zify.zify_post_hook ::= Z.div_mod_to_equations.

Lemma squeeze (x y b : Z) : 0 < b -> Z.abs (x * b - y * b) < b -> x = y.
Proof. intros Hb H. rewrite <- Z.mul_sub_distr_r, Z.abs_mul, (Z.abs_eq b) in H by lia. assert (Z.abs (x - y) < 1) by nia. lia. Qed.

Lemma count_grid k r c : clock_ok k -> slow r -> to_count k (grid k r c) (fst r) (snd r) = c.
Proof.
  intros K (Hn & Hd & Hs). destruct (K _ _ Hn Hd) as [F T].
  specialize (F c). specialize (T (grid k r c)). unfold grid in *.
  set (g := from_count k c (fst r) (snd r)) in *. set (x := to_count k g (fst r) (snd r)) in *.
  apply (squeeze _ _ (second * snd r)); [unfold second; lia|].
  replace (c * (second * snd r)) with (c * second * snd r) by ring. lia.
Qed.

Lemma grid_strict k r a b : clock_ok k -> slow r -> a < b -> grid k r a < grid k r b.
Proof.
  intros K (Hn & Hd & Hs) L. destruct (K _ _ Hn Hd) as [F _].
  pose proof (F a) as A. pose proof (F b) as B. unfold grid.
  assert (second * snd r <= (b - a) * (second * snd r)) by (unfold second in *; nia).
  assert (from_count k a (fst r) (snd r) * fst r < from_count k b (fst r) (snd r) * fst r).
  { replace (a * second * snd r) with (a * (second * snd r)) in A by ring.
    replace (b * second * snd r) with (b * (second * snd r)) in B by ring. lia. }
  nia.
Qed.

Lemma grid_lt k r a b : clock_ok k -> slow r -> grid k r a < grid k r b <-> a < b.
Proof.
  intros K S. split; [|now apply grid_strict]. intros H.
  destruct (Z.lt_trichotomy a b) as [L|[->|L]]; [exact L|lia|].
  pose proof (grid_strict k r b a K S L). lia.
Qed.

Lemma grid_le k r a b : clock_ok k -> slow r -> grid k r a <= grid k r b <-> a <= b.
Proof. intros K S. pose proof (grid_lt k r b a K S). lia. Qed.

Lemma rate_eqb_eq a b : rate_eqb a b = true <-> a = b.
Proof. destruct a, b. unfold rate_eqb. cbn [fst snd]. split; [intros H; f_equal; lia | intros [= -> ->]; lia]. Qed.

Lemma rate_eqb_refl a : rate_eqb a a = true.
Proof. now apply rate_eqb_eq. Qed.

Lemma count_at_ns k r v : clock_ok k -> slow r -> count_at k v r = to_count k (as_ns k v) (fst r) (snd r).
Proof.
  intros K S. destruct v as [ns|c r']; cbn [count_at as_ns]; [reflexivity|].
  destruct (rate_eqb r' r) eqn:E; [|reflexivity]. apply rate_eqb_eq in E. subst r'.
  symmetry. exact (count_grid k r c K S).
Qed.

Lemma count_at_grid k r v c : clock_ok k -> slow r -> as_ns k v = grid k r c -> count_at k v r = c.
Proof. intros K S E. rewrite count_at_ns, E by assumption. now apply count_grid. Qed.

Lemma count_at_mono k r v w : clock_ok k -> slow r -> as_ns k v <= as_ns k w -> count_at k v r <= count_at k w r.
Proof.
  intros K S L. rewrite !count_at_ns by assumption.
  destruct (Z.eq_dec (as_ns k v) (as_ns k w)) as [->|N]; [lia|].
  destruct S as (Hn & Hd & Hs). destruct (K _ _ Hn Hd) as [_ T].
  pose proof (T (as_ns k v)) as A. pose proof (T (as_ns k w)) as B.
  set (x := to_count k (as_ns k v) _ _) in *. set (y := to_count k (as_ns k w) _ _) in *.
  assert (as_ns k v * fst r < as_ns k w * fst r) by nia.
  assert (B2 : x * (second * snd r) < (y + 1) * (second * snd r)) by lia.
  assert (0 < second * snd r) by (unfold second; lia). nia.
Qed.

(** A still generator has a grain at a time exactly when the time is on its grid. *)
Lemma still_at {A} k r (t : A) v : clock_ok k -> slow r ->
  (forall c, as_ns k v = grid k r c -> still_get k r t v = Ok (Some (mkSg t (grid k r c) (grid k r c)))) /\
  ((forall c, as_ns k v <> grid k r c) -> still_get k r t v = Ok None).
Proof.
  intros K S. unfold still_get. split.
  - intros c E. assert (C := count_at_grid k r v c K S E). unfold at_rate. rewrite C.
    replace (tv_eqb k (TvCount c r) v) with true; [now rewrite E|].
    symmetry. unfold tv_eqb. destruct v as [ns|c' r'].
    + cbn [as_ns] in *. unfold grid in E. rewrite E. apply Z.eqb_refl.
    + destruct (rate_eqb r r') eqn:R.
      * cbn [count_at] in C. apply rate_eqb_eq in R. subst r'. rewrite rate_eqb_refl in C. subst c'. apply Z.eqb_refl.
      * cbn [as_ns] in *. unfold grid in E. rewrite E. apply Z.eqb_refl.
  - intros N. unfold at_rate. specialize (N (count_at k v r)).
    replace (tv_eqb k (TvCount (count_at k v r) r) v) with false; [reflexivity|].
    symmetry. unfold tv_eqb. destruct v as [ns|c' r'].
    + cbn [as_ns] in *. unfold grid in N. lia.
    + destruct (rate_eqb r r') eqn:R.
      * exfalso. apply N. apply rate_eqb_eq in R. subst r'. cbn [count_at as_ns]. rewrite rate_eqb_refl. reflexivity.
      * cbn [as_ns] in *. unfold grid in N. lia.
Qed.

(** Running the generators. *)
Lemma run_app {G} (get : tvalue -> res (option G)) want : forall l1 l2 i,
  run_gen get want i (l1 ++ l2) = cat (run_gen get want i l1) (run_gen get want (i + zlen l1) l2).
Proof.
  induction l1 as [|v l1 IH]; intros l2 i.
  - cbn [app run_gen]. rewrite zlen_nil, Z.add_0_r. unfold cat. cbn [fst snd]. cbn [app]. now destruct run_gen.
  - cbn [app run_gen]. rewrite zlen_cons. replace (i + (1 + zlen l1)) with (i + 1 + zlen l1) by ring.
    destruct (want i) as [[|]|e]; [|apply IH|reflexivity].
    destruct (get v) as [[g|]|e]; [|apply IH|reflexivity].
    rewrite IH. unfold cat. destruct (run_gen get want (i + 1) l1) as [gs [e|]]; cbn [fst snd]; [reflexivity|].
    destruct (run_gen get want (i + 1 + zlen l1) l2) as [gs2 e2]. reflexivity.
Qed.

Lemma run_shift {G} (get : tvalue -> res (option G)) want want' : forall l i j,
  (forall m, 0 <= m -> want (i + m) = want' (j + m)) -> run_gen get want i l = run_gen get want' j l.
Proof.
  induction l as [|v l IH]; intros i j H; [reflexivity|]. cbn [run_gen].
  replace (want i) with (want' j) by (specialize (H 0); rewrite !Z.add_0_r in H; symmetry; apply H; lia).
  rewrite (IH (i + 1) (j + 1)); [reflexivity|].
  intros m Hm. rewrite <- !Z.add_assoc. apply H. lia.
Qed.

Lemma seq_from a n : seq a n = map (fun m => (a + m)%nat) (seq 0 n).
Proof.
  revert a; induction n as [|n IH]; intros a; [reflexivity|].
  cbn [seq map]. rewrite Nat.add_0_r. f_equal. rewrite (IH (S a)), <- seq_shift, map_map. apply map_ext. intros m. lia.
Qed.

(** The values of a bounded range, all of them. *)
Lemma range_between k r s i e j n :
  (Z.to_nat (end_count k r e j - first_count k r s i) <= n)%nat ->
  range_values k r s i (Some e) j n = map (fun c => TvCount c r) (between (first_count k r s i) (end_count k r e j)).
Proof.
  intros H. unfold range_values, range_size, between. rewrite Nat.min_r by exact H. now rewrite map_map.
Qed.

Lemma between_app a b c : a <= b <= c -> between a c = between a b ++ between b c.
Proof.
  intros H. unfold between. replace (Z.to_nat (c - a)) with (Z.to_nat (b - a) + Z.to_nat (c - b))%nat by lia.
  rewrite seq_app, map_app. f_equal. rewrite (seq_from (0 + _)), map_map. apply map_ext. intros m. lia.
Qed.

Lemma between_len a b : zlen (between a b) = Z.max 0 (b - a).
Proof. unfold between. rewrite zlen_map. unfold zlen. rewrite seq_length. lia. Qed.

Lemma between_in a b c : In c (between a b) <-> a <= c < b.
Proof.
  unfold between. rewrite in_map_iff. split.
  - intros (m & <- & Hm). apply in_seq in Hm. lia.
  - intros H. exists (Z.to_nat (c - a)). rewrite in_seq. lia.
Qed.

Definition skipping (skip : Z) : Z -> res bool :=
  if skip =? 1 then fun _ => Ok true else fun i => if skip =? 0 then Err EZeroDiv else Ok (i mod skip =? 0).

Lemma skipping_shift skip i m : skip <> 0 -> i mod skip = 0 -> skipping skip (i + m) = skipping skip m.
Proof.
  intros N H. unfold skipping. destruct (skip =? 1); [reflexivity|]. destruct (skip =? 0); [reflexivity|].
  do 2 f_equal. rewrite Z.add_mod, H, Z.add_0_l, Z.mod_mod by exact N. reflexivity.
Qed.

Lemma get_range_unfold {G} k own (get : tvalue -> res (option G)) s i e j rt skip n :
  get_range k own get (mkTr (Some s) i e j rt) skip n =
  run_gen get (skipping skip) 0 (range_values k (match rt with Some r => r | None => own end) s i e j n).
Proof. reflexivity. Qed.

(** Splitting a range. *)
Lemma split_range {G} k own (get : tvalue -> res (option G)) s i m e j rt skip n :
  let r := match rt with Some r => r | None => own end in
  clock_ok k -> slow r -> skip <> 0 ->
  first_count k r s i <= count_at k m r <= end_count k r e j ->
  (count_at k m r - first_count k r s i) mod skip = 0 ->
  (Z.to_nat (end_count k r e j - first_count k r s i) <= n)%nat ->
  get_range k own get (mkTr (Some s) i (Some e) j rt) skip n =
  cat (get_range k own get (mkTr (Some s) i (Some m) false rt) skip n)
      (get_range k own get (mkTr (Some m) true (Some e) j rt) skip n).
Proof.
  intros r K S N B D Hn. rewrite !get_range_unfold. fold r.
  assert (E1 : end_count k r m false = count_at k m r) by apply Z.add_0_r.
  assert (E2 : first_count k r m true = count_at k m r) by apply Z.add_0_r.
  rewrite !range_between by (rewrite ?E1, ?E2; lia). rewrite E1, E2.
  rewrite (between_app _ (count_at k m r)) by exact B. rewrite map_app, run_app. f_equal.
  rewrite zlen_map, between_len. apply run_shift. intros x Hx. rewrite Z.add_0_l.
  apply skipping_shift; [exact N|]. rewrite Z.max_r by lia. exact D.
Qed.

(** With times: the middle lies between the ends. *)
Lemma split_times {G} k own (get : tvalue -> res (option G)) s m e n :
  clock_ok k -> slow own -> as_ns k s <= as_ns k m <= as_ns k e ->
  (Z.to_nat (count_at k e own - count_at k s own) <= n)%nat ->
  getitem k own get (KSlice (Some s) (Some e) SNone) n =
  match getitem k own get (KSlice (Some s) (Some m) SNone) n, getitem k own get (KSlice (Some m) (Some e) SNone) n with
  | Ok (GMany a), Ok (GMany b) => Ok (GMany (cat a b))
  | _, _ => Err EFuel
  end.
Proof.
  intros K S [L1 L2] Hn. unfold getitem. cbn [tr_start].
  pose proof (count_at_mono k own s m K S L1). pose proof (count_at_mono k own m e K S L2).
  rewrite (split_range k own get s true m e false None 1 n); [reflexivity|exact K|exact S|lia| | |].
  - unfold first_count, end_count. lia.
  - apply Z.mod_1_r.
  - unfold first_count, end_count. rewrite !Z.add_0_r. exact Hn.
Qed.

(** A still generator over a range. *)
Lemma run_still {A} k r (t : A) : clock_ok k -> slow r -> forall l i,
  run_gen (still_get k r t) (fun _ => Ok true) i (map (fun c => TvCount c r) l) = (still_grains k r t l, None).
Proof.
  intros K S. induction l as [|c l IH]; intros i; [reflexivity|]. cbn [map run_gen].
  destruct (still_at k r t (TvCount c r) K S) as [H _]. rewrite (H c) by reflexivity.
  now rewrite IH.
Qed.

Lemma run_still_skip {A} k r (t : A) skip : clock_ok k -> slow r -> (0 < skip)%nat -> forall l i q,
  0 <= i -> (i + Z.of_nat q) mod Z.of_nat skip = 0 -> (q < skip)%nat ->
  run_gen (still_get k r t) (fun i => Ok (i mod Z.of_nat skip =? 0)) i (map (fun c => TvCount c r) l) =
  (still_grains k r t (every_nth skip q l), None).
Proof.
  intros K S Hs. induction l as [|c l IH]; intros i q Hi Hq Hlt; [reflexivity|]. cbn [map run_gen].
  destruct q as [|q].
  - rewrite Z.add_0_r in Hq. rewrite Hq. cbn [Z.eqb].
    destruct (still_at k r t (TvCount c r) K S) as [H _]. rewrite (H c) by reflexivity.
    rewrite (IH (i + 1) (skip - 1)%nat); [reflexivity|lia| |lia].
    replace (i + 1 + Z.of_nat (skip - 1)) with (i + 1 * Z.of_nat skip) by lia.
    rewrite Z.mod_add by lia. exact Hq.
  - destruct (Z.eqb_spec (i mod Z.of_nat skip) 0) as [E|_].
    + exfalso. rewrite Z.add_mod, E, Z.add_0_l, Z.mod_mod in Hq by lia. rewrite Z.mod_small in Hq by lia. lia.
    + cbn [every_nth]. apply IH; [lia| |lia]. rewrite <- Hq. f_equal. lia.
Qed.

Lemma still_range {A} k own (t : A) s i e j rt n :
  clock_ok k -> slow own -> rt = None \/ rt = Some own ->
  (Z.to_nat (end_count k own e j - first_count k own s i) <= n)%nat ->
  get_range k own (still_get k own t) (mkTr (Some s) i (Some e) j rt) 1 n =
  (still_grains k own t (between (first_count k own s i) (end_count k own e j)), None).
Proof.
  intros K S R Hn. rewrite get_range_unfold.
  replace (match rt with Some r => r | None => own end) with own by (destruct R; subst rt; reflexivity).
  rewrite range_between by exact Hn. unfold skipping. cbn [Z.eqb Pos.eqb]. now apply run_still.
Qed.

Lemma still_skip {A} k own (t : A) s i e j rt n skip :
  clock_ok k -> slow own -> rt = None \/ rt = Some own -> (0 < skip)%nat ->
  (Z.to_nat (end_count k own e j - first_count k own s i) <= n)%nat ->
  get_range k own (still_get k own t) (mkTr (Some s) i (Some e) j rt) (Z.of_nat skip) n =
  (still_grains k own t (every_nth skip 0 (between (first_count k own s i) (end_count k own e j))), None).
Proof.
  intros K S R Hs Hn. rewrite get_range_unfold.
  replace (match rt with Some r => r | None => own end) with own by (destruct R; subst rt; reflexivity).
  rewrite range_between by exact Hn. unfold skipping.
  destruct (Z.eqb_spec (Z.of_nat skip) 1) as [E|_].
  - rewrite run_still by assumption. replace skip with 1%nat by lia. do 2 f_equal.
    generalize (between (first_count k own s i) (end_count k own e j)). clear.
    induction l as [|x l IH]; [reflexivity|]. cbn [every_nth Nat.sub]. now f_equal.
  - destruct (Z.eqb_spec (Z.of_nat skip) 0) as [E|_]; [lia|].
    apply run_still_skip; [exact K|exact S|exact Hs|lia|apply Z.mod_0_l; lia|lia].
Qed.

(** The times of the grains of [g[a:b]]: exactly the grid points in the range, when its ends are on the grid. *)
Lemma still_cover {A} k own (t : A) s e a b n :
  clock_ok k -> slow own -> as_ns k s = grid k own a -> as_ns k e = grid k own b -> (Z.to_nat (b - a) <= n)%nat ->
  getitem k own (still_get k own t) (KSlice (Some s) (Some e) SNone) n =
    Ok (GMany (still_grains k own t (between a b), None)) /\
  (forall c, In c (between a b) <-> as_ns k s <= grid k own c < as_ns k e).
Proof.
  intros K S Ea Eb Hn.
  assert (Ca := count_at_grid k own s a K S Ea). assert (Cb := count_at_grid k own e b K S Eb). split.
  - unfold getitem. cbn [tr_start]. rewrite still_range; [|exact K|exact S|left; reflexivity|].
    + unfold first_count, end_count. rewrite Ca, Cb, !Z.add_0_r. reflexivity.
    + unfold first_count, end_count. rewrite Ca, Cb, !Z.add_0_r. exact Hn.
  - intros c. rewrite between_in, Ea, Eb, grid_lt, grid_le by assumption. reflexivity.
Qed.

(** Without an end: the first n grains. *)
Lemma still_endless {A} k own (t : A) s i j n :
  clock_ok k -> slow own ->
  get_range k own (still_get k own t) (mkTr (Some s) i None j None) 1 n =
  (still_grains k own t (between (first_count k own s i) (first_count k own s i + Z.of_nat n)), None).
Proof.
  intros K S. rewrite get_range_unfold. unfold skipping. cbn [Z.eqb Pos.eqb].
  rewrite <- (run_still k own t K S _ 0). f_equal. unfold range_values, range_size, between.
  rewrite Z.add_simpl_l, Nat2Z.id, map_map. reflexivity.
Qed.

Lemma item_at {A} k own (t : A) v : clock_ok k -> slow own ->
  (forall c n, as_ns k v = grid k own c ->
    getitem k own (still_get k own t) (KValue v) n = Ok (GOne (mkSg t (grid k own c) (grid k own c)))) /\
  (forall n, (forall c, as_ns k v <> grid k own c) -> getitem k own (still_get k own t) (KValue v) n = Err EKey).
Proof.
  intros K S. destruct (still_at k own t v K S) as [A1 A2]. unfold getitem. split.
  - intros c _ E. now rewrite (A1 c E).
  - intros _ N. now rewrite (A2 N).
Qed.

Lemma contains_at {A} k own (t : A) v : clock_ok k -> slow own ->
  contains (still_get k own t) v = Ok true <-> exists c, as_ns k v = grid k own c.
Proof.
  intros K S. destruct (still_at k own t v K S) as [A1 A2]. unfold contains. split.
  - intros H. exists (count_at k v own). destruct (Z.eq_dec (as_ns k v) (grid k own (count_at k v own))) as [E|N]; [exact E|].
    exfalso. rewrite A2 in H; [discriminate|]. intros c E. apply N. now rewrite (count_at_grid k own v c K S E).
  - intros [c E]. now rewrite (A1 c E).
Qed.

Lemma no_start {G} k own (get : tvalue -> res (option G)) n : forall b s i e j r,
  (match s with STime ns => ns <> 0 | _ => True end) ->
  getitem k own get (KSlice None b s) n = Err EValue /\ getitem k own get (KRange (mkTr None i e j r)) n = Err EValue.
Proof.
  intros b s i e j r H. destruct s as [|z|ns]; (split; [|reflexivity]); try reflexivity.
  unfold getitem, step_rate. destruct (Z.eqb_spec ns 0) as [E|_]; [contradiction|reflexivity].
Qed.

Lemma example_clock_ok : clock_ok example_clock.
Proof.
  intros n d Hn Hd. assert (Hs : 0 < second * d) by (unfold second; lia). split.
  - intros c. cbn [example_clock from_count]. pose proof (Z.div_mod (c * second * d) n). pose proof (Z.mod_pos_bound (c * second * d) n).
    set (q := c * second * d / n) in *. lia.
  - intros ns. cbn [example_clock to_count]. set (p := second * d) in *.
    pose proof (Z.div_mod (2 * ns * n + p) (2 * p)). pose proof (Z.mod_pos_bound (2 * ns * n + p) (2 * p)).
    set (q := (2 * ns * n + p) / (2 * p)) in *. replace (2 * ns * n) with (2 * (ns * n)) in * by ring.
    set (m := ns * n) in *. replace (2 * p * q) with (2 * (q * p)) in * by ring. set (qp := q * p) in *. lia.
Qed.
