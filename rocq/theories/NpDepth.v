(** Bit depth conversions, compositions and the whole table. *)
From Coq Require Import Lia ZifyBool ZifyNat.
From Verif Require Import Base BaseProofs CogEnums VideoLayout LayoutProofs NpView NpViewProofs NpSpec NpGrainProofs NpConvert NpConvSpec NpConvProofs V210Proofs NpTable NpTheorems.
Ltac Zify.zify_post_hook ::= Z.div_mod_to_equations.

Lemma down_prim a b : k_model a = k_model b -> same_sub a b = true -> k_depth b < k_depth a -> exists k, prim_for a b = Some k /\ (k = KDownYuv \/ k = KDownRgb).
Proof.
  intros Hm Hs Hd. unfold prim_for. rewrite <- Hm, Hs. destruct (Z.eqb_spec (k_depth a) (k_depth b)); [lia |]. destruct (Z.ltb_spec (k_depth b) (k_depth a)); [| lia].
  destruct (k_model a); eexists; (split; [reflexivity | tauto]).
Qed.

Lemma up_prim a b : k_model a = k_model b -> same_sub a b = true -> k_depth a < k_depth b -> exists k, prim_for a b = Some k /\ (k = KUpYuv \/ k = KUpRgb).
Proof.
  intros Hm Hs Hd. unfold prim_for. rewrite <- Hm, Hs. destruct (Z.eqb_spec (k_depth a) (k_depth b)); [lia |]. destruct (Z.ltb_spec (k_depth b) (k_depth a)); [lia |].
  destruct (k_model a); eexists; (split; [reflexivity | tauto]).
Qed.

Lemma depth_pos g k : has_kind g k -> 1 <= k_depth k <= 8 * g_item g.
Proof. intros H. exact (proj2 (kind_depth g k H)). Qed.

Lemma depth_ne g a f b : has_kind g a -> In (f, b) kinds -> k_depth a <> k_depth b -> g_fmt g <> f.
Proof. intros [Ha _] Hb Hd E. rewrite E in Ha. apply Hd. rewrite (kind_unique f a b Ha Hb). reflexivity. Qed.

(** Rounding. *)
Lemma nearest_is n s t : 1 <= n -> t = nearest n s <-> s - 2 ^ (n - 1) < 2 ^ n * t <= s + 2 ^ (n - 1).
Proof.
  intros Hn. unfold nearest. assert (H : 0 < 2 ^ (n - 1)) by (apply Z.pow_pos_nonneg; lia).
  assert (E : 2 ^ n = 2 * 2 ^ (n - 1)) by (rewrite <- Z.pow_succ_r by lia; f_equal; lia).
  rewrite E. generalize dependent (2 ^ (n - 1)). intros h H E. clear E. split.
  - intros ->. pose proof (Z.div_mod (s + h) (2 * h) ltac:(lia)). pose proof (Z.mod_pos_bound (s + h) (2 * h) ltac:(lia)). lia.
  - intros Hb. apply (Z.div_unique _ _ _ (s + h - 2 * h * t)); lia.
Qed.

Lemma pow_split a b : 0 <= b <= a -> 2 ^ a = 2 ^ b * 2 ^ (a - b).
Proof. intros H. rewrite <- Z.pow_add_r by lia. f_equal. lia. Qed.

Lemma depth_down fuel o g a f b : has_kind g a -> In (f, b) kinds -> k_model a = k_model b -> same_sub a b = true -> k_depth b < k_depth a ->
  even_size a (g_w g) (g_h g) -> below g a ->
  let n := k_depth a - k_depth b in
  exists g', convert (S fuel) conversions o g f = Ok g' /\ g_fmt g' = f /\ has_kind g' b /\ same_size g g' /\
    forall c x y, In c (names (k_model b)) -> in_comp b g' c x y ->
      let s := sample g c x y in
      (s < 2 ^ k_depth a - 2 ^ (n - 1) -> 0 <= sample g' c x y < 2 ^ k_depth b /\ s - 2 ^ (n - 1) < 2 ^ n * sample g' c x y <= s + 2 ^ (n - 1)) /\
      (2 ^ k_depth a - 2 ^ (n - 1) <= s -> sample g' c x y = if (k_depth b =? 8) || (k_depth b =? 16) then 0 else 2 ^ k_depth b).
Proof.
  intros Ha Hf Hm Hs Hd He Hb n. destruct (down_prim a b Hm Hs Hd) as (k & Hp & Hk).
  assert (He' : even_size b (g_w g) (g_h g)) by (destruct (sub_is _ _ Hs) as [E1 E2]; unfold even_size in *; rewrite <- E1, <- E2; exact He).
  destruct (convert_prim fuel o k g a f b Ha Hf (depth_ne g a f b Ha Hf ltac:(lia)) Hp He He') as (g' & E & F & K & [S1 S2] & P).
  exists g'. split; [exact E |]. split; [exact F |]. split; [exact K |]. split; [split; assumption |].
  intros c x y Hc Hxy s. rewrite P by assumption.
  assert (Em : meaning k o (g_fmt g) a b (sample g) c x y = nearest n s) by (destruct Hk as [-> | ->]; reflexivity). rewrite Em. clear P.
  assert (Hsr : 0 <= s < 2 ^ k_depth a).
  { apply Hb; [rewrite Hm; exact Hc |]. destruct Hxy as [Hx Hy]. rewrite <- S1 in Hx. rewrite <- S2 in Hy.
    destruct (sub_eq a b c (g_w g) Hs) as [E1 _]. destruct (sub_eq a b c (g_h g) Hs) as [_ E2]. split; [rewrite E1 | rewrite E2]; assumption. }
  pose proof (depth_pos g' b K) as Hd1. pose proof (kind_item g' b K) as Hi.
  assert (Hn : 1 <= n) by (unfold n; lia).
  assert (Hp0 : 0 < 2 ^ (n - 1)) by (apply Z.pow_pos_nonneg; lia).
  assert (En : 2 ^ n = 2 * 2 ^ (n - 1)) by (rewrite <- Z.pow_succ_r by lia; f_equal; lia).
  assert (Ea : 2 ^ k_depth a = 2 ^ k_depth b * 2 ^ n) by (apply pow_split; lia).
  assert (Hpb : 0 < 2 ^ k_depth b) by (apply Z.pow_pos_nonneg; lia).
  pose proof (proj1 (nearest_is n s (nearest n s) Hn) eq_refl) as Hnear.
  assert (Hle : 2 ^ k_depth b <= 2 ^ (8 * g_item g')) by (apply Z.pow_le_mono_r; lia).
  clearbody s. rewrite Ea in *. rewrite En in *. split.
  - intros Hlow. assert (0 <= nearest n s < 2 ^ k_depth b) by nia. rewrite Z.mod_small by lia. split; [assumption | exact Hnear].
  - intros Htop. assert (Et : nearest n s = 2 ^ k_depth b) by nia. rewrite Et.
    assert (Hdb : k_depth b = 8 \/ k_depth b = 10 \/ k_depth b = 12 \/ k_depth b = 16 \/ k_depth b = 32).
    { clear - Hf. assert (C : forallb (fun e => let d := k_depth (snd e) in (d =? 8) || (d =? 10) || (d =? 12) || (d =? 16) || (d =? 32)) kinds = true) by (vm_compute; reflexivity).
      rewrite forallb_forall in C. specialize (C _ Hf). cbn [snd] in C. cbv zeta in C. lia. }
    assert (Hda : k_depth a <= 32).
    { clear - Ha. assert (C : forallb (fun e => k_depth (snd e) <=? 32) kinds = true) by (vm_compute; reflexivity).
      rewrite forallb_forall in C. specialize (C _ (proj1 Ha)). cbn [snd] in C. lia. }
    destruct Hdb as [D | [D | [D | [D | D]]]]; rewrite D in *; rewrite Hi; [vm_compute; reflexivity | vm_compute; reflexivity | vm_compute; reflexivity | vm_compute; reflexivity | lia].
Qed.

Lemma depth_up fuel o g a f b : has_kind g a -> In (f, b) kinds -> k_model a = k_model b -> same_sub a b = true -> k_depth a < k_depth b ->
  even_size a (g_w g) (g_h g) -> below g a ->
  exists g', convert (S fuel) conversions o g f = Ok g' /\ g_fmt g' = f /\ has_kind g' b /\ same_size g g' /\ below g' b /\
    forall c x y, In c (names (k_model b)) -> in_comp b g' c x y -> sample g' c x y / 2 ^ (k_depth b - k_depth a) = sample g c x y.
Proof.
  intros Ha Hf Hm Hs Hd He Hb. destruct (up_prim a b Hm Hs Hd) as (k & Hp & Hk).
  assert (He' : even_size b (g_w g) (g_h g)) by (destruct (sub_is _ _ Hs) as [E1 E2]; unfold even_size in *; rewrite <- E1, <- E2; exact He).
  destruct (convert_prim fuel o k g a f b Ha Hf (depth_ne g a f b Ha Hf ltac:(lia)) Hp He He') as (g' & E & F & K & [S1 S2] & P).
  exists g'. split; [exact E |]. split; [exact F |]. split; [exact K |]. split; [split; assumption |].
  set (n := k_depth b - k_depth a) in *.
  pose proof (depth_pos g' b K) as Hd1. pose proof (depth_pos g a Ha) as Hd0. assert (Hn : 0 < 2 ^ n) by (apply Z.pow_pos_nonneg; unfold n; lia).
  assert (Eb : 2 ^ k_depth b = 2 ^ k_depth a * 2 ^ n) by (apply pow_split; lia).
  assert (Hle : 2 ^ k_depth b <= 2 ^ (8 * g_item g')) by (apply Z.pow_le_mono_r; lia).
  assert (Hall : forall c x y, In c (names (k_model b)) -> in_comp b g' c x y -> exists r, 0 <= r < 2 ^ n /\ sample g' c x y = sample g c x y * 2 ^ n + r /\ 0 <= sample g c x y < 2 ^ k_depth a).
  { intros c x y Hc Hxy. rewrite P by assumption.
    assert (Em : exists r, meaning k o (g_fmt g) a b (sample g) c x y = sample g c x y * 2 ^ n + r mod 2 ^ n) by (destruct Hk as [-> | ->]; eexists; reflexivity).
    destruct Em as [r Em]. exists (r mod 2 ^ n). pose proof (Z.mod_pos_bound r (2 ^ n) Hn) as Hr. split; [exact Hr |].
    assert (Hsr : 0 <= sample g c x y < 2 ^ k_depth a).
    { apply Hb; [rewrite Hm; exact Hc |]. destruct Hxy as [Hx Hy]. rewrite <- S1 in Hx. rewrite <- S2 in Hy.
      destruct (sub_eq a b c (g_w g) Hs) as [E1 _]. destruct (sub_eq a b c (g_h g) Hs) as [_ E2]. split; [rewrite E1 | rewrite E2]; assumption. }
    split; [| exact Hsr]. rewrite Em. apply Z.mod_small. nia. }
  clear P. split.
  - intros c x y Hc Hxy. destruct (Hall c x y Hc Hxy) as (r & Hr & -> & Hsr). rewrite Eb. nia.
  - intros c x y Hc Hxy. destruct (Hall c x y Hc Hxy) as (r & Hr & -> & Hsr). rewrite Z.add_comm, Z.div_add by lia. rewrite Z.div_small by lia. lia.
Qed.

(** Every conversion of the table. *)
Lemma table_pair t a b : table_fine t = true -> In a formats -> In b formats -> a <> b -> exists k, lookup t a b = Ok k /\ suits 4 t k a b = true.
Proof.
  intros C Ha Hb Hne. unfold table_fine in C. rewrite forallb_forall in C. specialize (C _ Ha). rewrite forallb_forall in C. specialize (C _ Hb).
  destruct (Z.eqb_spec a b) as [Hcon | _]; [contradiction |]. cbn [orb] in C. destruct (lookup t a b) as [k |]; [| discriminate]. exists k. split; [reflexivity | exact C].
Qed.

Lemma run_more t o : forall fuel k gin gout g', run_conv fuel t o k gin gout = Ok g' -> forall fuel', (fuel <= fuel')%nat -> run_conv fuel' t o k gin gout = Ok g'.
Proof.
  induction fuel as [| fuel IH]; intros k gin gout g' E fuel' Hle; [discriminate |]. destruct fuel' as [| fuel']; [lia |]. assert (Hle' : (fuel <= fuel')%nat) by lia.
  destruct k; cbn [run_conv] in *; try exact E.
  - destruct (ng_new mid (g_w gin) (g_h gin)) as [gm |]; [| discriminate]. cbn [rbind] in *.
    destruct (run_conv fuel t o k1 gin gm) as [g1 |] eqn:E1; [| discriminate]. rewrite (IH _ _ _ _ E1 fuel' Hle'). cbn [rbind] in *. exact (IH _ _ _ _ E fuel' Hle').
  - destruct (ng_new fmt_mid (g_w gin) (g_h gin)) as [gm |]; [| discriminate]. cbn [rbind] in *. destruct (lookup t fmt_in fmt_mid) as [k1 |]; [| discriminate]. cbn [rbind] in *.
    destruct (run_conv fuel t o k1 gin gm) as [g1 |] eqn:E1; [| discriminate]. rewrite (IH _ _ _ _ E1 fuel' Hle'). cbn [rbind] in *.
    destruct (lookup t fmt_mid fmt_out) as [k2 |]; [| discriminate]. cbn [rbind] in *. exact (IH _ _ _ _ E fuel' Hle').
Qed.

Lemma convert_all fuel o g f : (4 <= fuel)%nat -> np_ok g -> In (g_fmt g) formats -> In f formats -> g_w g mod 2 = 0 -> g_h g mod 2 = 0 ->
  exists g', convert fuel conversions o g f = Ok g' /\ np_ok g' /\ g_fmt g' = f /\ same_size g g'.
Proof.
  intros Hfuel Hg Hin Hf Ew Eh. unfold convert. destruct (Z.eqb_spec (g_fmt g) f) as [E | Hne].
  - exists g. split; [reflexivity |]. split; [exact Hg |]. split; [exact E |]. split; reflexivity.
  - pose proof Hg as (Hw & Hh & _). destruct (new_format f (g_w g) (g_h g) Hf Hw Hh) as (g0 & -> & O0 & F0 & W0 & H0). cbn [rbind].
    destruct (table_pair conversions (g_fmt g) f table_checked Hin Hf Hne) as (k & -> & Hs). cbn [rbind]. rewrite <- F0 in Hs.
    destruct (run_suits 4 conversions o k g g0 Hs Hg O0) as (g' & E & O & (SF & SW & SH & _)); [split; congruence | exact Ew | exact Eh |].
    exists g'. split; [apply (run_more _ _ 4); [exact E | exact Hfuel] |]. split; [exact O |]. split; [congruence |]. split; congruence.
Qed.

(** Formats outside the table. *)
Lemma table_only a b k : In (a, b, k) conversions -> In a formats /\ In b formats /\ a <> b.
Proof.
  intros H. assert (C : forallb (fun e => existsb (Z.eqb (fst (fst e))) formats && existsb (Z.eqb (snd (fst e))) formats && negb (fst (fst e) =? snd (fst e))) conversions = true) by (vm_compute; reflexivity).
  rewrite forallb_forall in C. specialize (C _ H). cbn [fst snd] in C. apply andb_true_iff in C. destruct C as [C C3]. apply andb_true_iff in C. destruct C as [C1 C2].
  apply existsb_exists in C1. destruct C1 as (a' & Ha & E). apply Z.eqb_eq in E. subst a'. apply existsb_exists in C2. destruct C2 as (b' & Hb & E). apply Z.eqb_eq in E. subst b'.
  split; [exact Ha |]. split; [exact Hb |]. apply negb_true_iff in C3. apply Z.eqb_neq. exact C3.
Qed.

Lemma lookup_none a b : ~ In a formats \/ ~ In b formats -> lookup conversions a b = Err EUnsupported.
Proof.
  intros H. unfold lookup. destruct (find _ conversions) as [[[a' b'] k] |] eqn:E; [| reflexivity]. apply find_some in E. destruct E as [Hin E]. cbn [fst snd] in E.
  apply andb_true_iff in E. destruct E as [E1 E2]. apply Z.eqb_eq in E1, E2. subst a' b'. destruct (table_only a b k Hin) as (Ha & Hb & _). destruct H as [H | H]; [destruct (H Ha) | destruct (H Hb)].
Qed.

(** Two-step conversions are made of registered ones. *)
Definition steps_fine (t : list (Z * Z * conv)) : bool := forallb (fun e => match snd e with
  | KTwoStep a' m b' => (a' =? fst (fst e)) && (b' =? snd (fst e)) && is_ok (lookup t a' m) && is_ok (lookup t m b') && existsb (Z.eqb m) formats
  | _ => true end) t.

Lemma is_ok_some {A} (r : res A) : is_ok r = true -> exists a, r = Ok a.
Proof. destruct r as [a |]; [exists a; reflexivity | discriminate]. Qed.

Lemma two_steps t a b a' m b' : steps_fine t = true -> In (a, b, KTwoStep a' m b') t -> a' = a /\ b' = b /\
  (exists k1 k2, lookup t a m = Ok k1 /\ lookup t m b = Ok k2) /\ In m formats.
Proof.
  intros C H. unfold steps_fine in C. rewrite forallb_forall in C. specialize (C _ H). cbn [fst snd] in C. repeat (apply andb_true_iff in C; destruct C as [C ?]).
  apply Z.eqb_eq in C, H3. subst a' b'. split; [reflexivity |]. split; [reflexivity |]. split.
  - apply is_ok_some in H1, H2. destruct H1 as [k2 E2], H2 as [k1 E1]. exists k1, k2. split; assumption.
  - apply existsb_exists in H0. destruct H0 as (m' & Hm & E). apply Z.eqb_eq in E. subst m'. exact Hm.
Qed.

Lemma steps_checked : steps_fine conversions = true.
Proof. vm_compute. reflexivity. Qed.

(** Up and down again. *)
Lemma round_back A h s t m r top : 0 < h -> t = 2 * h * s + m -> 0 <= m < 2 * h ->
  (t < A * (2 * h) - h -> 0 <= r < A /\ t - h < 2 * h * r <= t + h) -> (A * (2 * h) - h <= t -> r = top) ->
  (s < A - 1 -> r = s \/ r = s + 1) /\ (s = A - 1 -> r = s \/ r = top).
Proof.
  intros Hh Dt Mt P2 P3. destruct (Z_lt_le_dec t (A * (2 * h) - h)) as [Hl | Hl].
  - specialize (P2 Hl). destruct P2 as [R1 R2]. clear P3. assert (r = s \/ r = s + 1) by nia. split; [tauto |]. intros ->. left. lia.
  - specialize (P3 Hl). split; [intros Hlt; exfalso; clear P2; nia | intros _; right; exact P3].
Qed.

Lemma depth_up_down fuel o g a f b f' : has_kind g a -> In (f, b) kinds -> In (f', a) kinds -> k_model a = k_model b -> same_sub a b = true -> k_depth a < k_depth b ->
  even_size a (g_w g) (g_h g) -> below g a ->
  exists g1 g2, convert (S fuel) conversions o g f = Ok g1 /\ convert (S fuel) conversions o g1 f' = Ok g2 /\ has_kind g2 a /\ same_size g g2 /\
    forall c x y, In c (names (k_model a)) -> in_comp a g2 c x y ->
      let s := sample g c x y in
      (s < 2 ^ k_depth a - 1 -> sample g2 c x y = s \/ sample g2 c x y = s + 1) /\
      (s = 2 ^ k_depth a - 1 -> sample g2 c x y = s \/ sample g2 c x y = if (k_depth a =? 8) || (k_depth a =? 16) then 0 else 2 ^ k_depth a).
Proof.
  intros Ha Hf Hf' Hm Hs Hd He Hb.
  destruct (depth_up fuel o g a f b Ha Hf Hm Hs Hd He Hb) as (g1 & E1 & F1 & K1 & [S1 S2] & B1 & P1).
  destruct (sub_is _ _ Hs) as [Q1 Q2].
  assert (Hs' : same_sub b a = true) by (unfold same_sub; rewrite Q1, Q2, !Z.eqb_refl; reflexivity).
  assert (He' : even_size b (g_w g1) (g_h g1)) by (unfold even_size in *; rewrite <- S1, <- S2, <- Q1, <- Q2; exact He).
  destruct (depth_down fuel o g1 b f' a K1 Hf' (eq_sym Hm) Hs' Hd He' B1) as (g2 & E2 & F2 & K2 & [S3 S4] & P2).
  exists g1, g2. split; [exact E1 |]. split; [exact E2 |]. split; [exact K2 |]. split; [split; congruence |].
  intros c x y Hc Hxy s. specialize (P2 c x y Hc Hxy). cbv zeta in P2. destruct P2 as [P2 P3].
  assert (Hxy1 : in_comp b g1 c x y).
  { destruct Hxy as [Hx Hy]. rewrite <- S3 in Hx. rewrite <- S4 in Hy. destruct (sub_eq a b c (g_w g1) Hs) as [X1 _]. destruct (sub_eq a b c (g_h g1) Hs) as [_ X2]. rewrite X1 in Hx. rewrite X2 in Hy. split; assumption. }
  assert (Hcb : In c (names (k_model b))) by (rewrite <- Hm; exact Hc).
  specialize (P1 c x y Hcb Hxy1). specialize (B1 c x y Hcb Hxy1). fold s in P1.
  pose proof (depth_pos g a Ha) as Hda. set (n := k_depth b - k_depth a) in *.
  assert (Hp0 : 0 < 2 ^ (n - 1)) by (apply Z.pow_pos_nonneg; unfold n; lia).
  assert (En : 2 ^ n = 2 * 2 ^ (n - 1)) by (rewrite <- Z.pow_succ_r by (unfold n; lia); f_equal; lia).
  assert (Eb : 2 ^ k_depth b = 2 ^ k_depth a * 2 ^ n) by (apply pow_split; lia).
  set (t := sample g1 c x y) in *. set (r := sample g2 c x y) in *. clearbody t r s n. rewrite Eb in *. rewrite En in *.
  pose proof (Z.div_mod t (2 * 2 ^ (n - 1)) ltac:(lia)) as Dt. pose proof (Z.mod_pos_bound t (2 * 2 ^ (n - 1)) ltac:(lia)) as Mt. rewrite P1 in Dt.
  exact (round_back _ _ _ _ _ _ _ Hp0 Dt Mt P2 P3).
Qed.

(** The named cases. *)
Lemma mean_444 fuel o g d f : has_kind g (yuv444 d) -> In (f, yuv422 d) kinds -> g_w g mod 2 = 0 ->
  exists g', convert (S fuel) conversions o g f = Ok g' /\ g_fmt g' = f /\ has_kind g' (yuv422 d) /\ same_size g g' /\
    (forall x y, 0 <= x < g_w g -> 0 <= y < g_h g -> sample g' CY x y = sample g CY x y) /\
    (forall n x y, In n [CU; CV] -> 0 <= x < g_w g / 2 -> 0 <= y < g_h g ->
       let s1 := sample g n (2 * x) y in let s2 := sample g n (2 * x + 1) y in
       s1 + s2 <= 2 * sample g' n x y <= s1 + s2 + 1 /\ Z.min s1 s2 <= sample g' n x y <= Z.max s1 s2).
Proof.
  intros Ha Hf He. destruct (mean_kinds fuel o g (yuv444 d) f (yuv422 d) KMean444 Ha Hf) as (g' & E & F & K & [S1 S2] & P1 & P2).
  - unfold prim_for. cbn [k_model k_depth yuv444 yuv422]. rewrite Z.eqb_refl. reflexivity.
  - left. reflexivity.
  - split; cbn [k_hs k_vs yuv444]; apply Z.mod_1_r.
  - split; cbn [k_hs k_vs yuv422]; [exact He | apply Z.mod_1_r].
  - exists g'. split; [exact E |]. split; [exact F |]. split; [exact K |]. split; [split; assumption |]. split.
    + intros x y Hx Hy. apply P1. split; cbn [comp_w comp_h]; congruence.
    + intros n x y Hn Hx Hy. specialize (P2 n x y Hn).
      assert (Hin : in_comp (yuv422 d) g' n x y).
      { destruct Hn as [<- | [<- | []]]; (split; cbn [comp_w comp_h k_hs k_vs yuv422]; rewrite <- ?S1, <- ?S2, ?Z.div_1_r; assumption). }
      specialize (P2 Hin). cbn [k_hs yuv444 yuv422 Z.eqb Pos.eqb] in P2. change (1 - 1) with 0 in P2. change (1 + 1) with 2 in P2. change (1 + 0) with 1 in P2. rewrite Z.mul_1_l, Z.add_0_r in P2. exact P2.
Qed.

Lemma mean_422 fuel o g d f : has_kind g (yuv422 d) -> In (f, yuv420 d) kinds -> g_w g mod 2 = 0 -> g_h g mod 2 = 0 ->
  exists g', convert (S fuel) conversions o g f = Ok g' /\ g_fmt g' = f /\ has_kind g' (yuv420 d) /\ same_size g g' /\
    (forall x y, 0 <= x < g_w g -> 0 <= y < g_h g -> sample g' CY x y = sample g CY x y) /\
    (forall n x y, In n [CU; CV] -> 0 <= x < g_w g / 2 -> 0 <= y < g_h g / 2 ->
       let s1 := sample g n x (2 * y) in let s2 := sample g n x (2 * y + 1) in
       s1 + s2 <= 2 * sample g' n x y <= s1 + s2 + 1 /\ Z.min s1 s2 <= sample g' n x y <= Z.max s1 s2).
Proof.
  intros Ha Hf He He2. destruct (mean_kinds fuel o g (yuv422 d) f (yuv420 d) KMean422 Ha Hf) as (g' & E & F & K & [S1 S2] & P1 & P2).
  - unfold prim_for. cbn [k_model k_depth yuv420 yuv422]. rewrite Z.eqb_refl. reflexivity.
  - right. reflexivity.
  - split; cbn [k_hs k_vs yuv422]; [exact He | apply Z.mod_1_r].
  - split; cbn [k_hs k_vs yuv420]; assumption.
  - exists g'. split; [exact E |]. split; [exact F |]. split; [exact K |]. split; [split; assumption |]. split.
    + intros x y Hx Hy. apply P1. split; cbn [comp_w comp_h]; congruence.
    + intros n x y Hn Hx Hy. specialize (P2 n x y Hn).
      assert (Hin : in_comp (yuv420 d) g' n x y).
      { destruct Hn as [<- | [<- | []]]; (split; cbn [comp_w comp_h k_hs k_vs yuv420]; rewrite <- ?S1, <- ?S2; assumption). }
      specialize (P2 Hin). cbn [k_hs yuv420 yuv422 Z.eqb Pos.eqb] in P2. change (1 - 0) with 1 in P2. change (1 + 1) with 2 in P2. change (1 + 0) with 1 in P2. rewrite Z.mul_1_l, Z.add_0_r in P2. exact P2.
Qed.

Lemma dup_mean_422 fuel o g d f f' : has_kind g (yuv422 d) -> In (f, yuv444 d) kinds -> In (f', yuv422 d) kinds -> g_w g mod 2 = 0 ->
  exists g1 g2, convert (S fuel) conversions o g f = Ok g1 /\ convert (S fuel) conversions o g1 f' = Ok g2 /\ has_kind g2 (yuv422 d) /\ same_picture (yuv422 d) g g2.
Proof.
  intros Ha Hf Hf' He. apply (dup_mean fuel o g (yuv422 d) f (yuv444 d) f' KDup422 KMean444 Ha Hf Hf').
  - unfold prim_for. cbn [k_model k_depth yuv444 yuv422]. rewrite Z.eqb_refl. reflexivity.
  - unfold prim_for. cbn [k_model k_depth yuv444 yuv422]. rewrite Z.eqb_refl. reflexivity.
  - left. split; reflexivity.
  - reflexivity.
  - split; cbn [k_hs k_vs yuv422]; [exact He | apply Z.mod_1_r].
  - split; cbn [k_hs k_vs yuv444]; apply Z.mod_1_r.
Qed.

Lemma dup_mean_420 fuel o g d f f' : has_kind g (yuv420 d) -> In (f, yuv422 d) kinds -> In (f', yuv420 d) kinds -> g_w g mod 2 = 0 -> g_h g mod 2 = 0 ->
  exists g1 g2, convert (S fuel) conversions o g f = Ok g1 /\ convert (S fuel) conversions o g1 f' = Ok g2 /\ has_kind g2 (yuv420 d) /\ same_picture (yuv420 d) g g2.
Proof.
  intros Ha Hf Hf' He He2. apply (dup_mean fuel o g (yuv420 d) f (yuv422 d) f' KDup420 KMean422 Ha Hf Hf').
  - unfold prim_for. cbn [k_model k_depth yuv420 yuv422]. rewrite Z.eqb_refl. reflexivity.
  - unfold prim_for. cbn [k_model k_depth yuv420 yuv422]. rewrite Z.eqb_refl. reflexivity.
  - right. split; reflexivity.
  - reflexivity.
  - split; cbn [k_hs k_vs yuv420]; assumption.
  - split; cbn [k_hs k_vs yuv422]; [exact He | apply Z.mod_1_r].
Qed.

(** The formats in the middle. *)
Definition kind_eqb (a b : kind) : bool := model_eqb (k_model a) (k_model b) && same_sub a b && (k_depth a =? k_depth b).
Lemma kind_eqb_eq a b : kind_eqb a b = true -> a = b.
Proof.
  destruct a as [m1 h1 v1 d1], b as [m2 h2 v2 d2]. unfold kind_eqb, same_sub. cbn [k_model k_hs k_vs k_depth]. intros H.
  repeat (apply andb_true_iff in H; destruct H as [H ?]). apply andb_true_iff in H1. destruct H1 as [E1 E2]. apply Z.eqb_eq in E1, E2, H0. subst. destruct m1, m2; reflexivity || discriminate.
Qed.
Definition has_kind_b (f : Z) (k : kind) : bool := existsb (fun e => (fst e =? f) && kind_eqb (snd e) k) kinds.
Definition kinds_at (f : Z) : list kind := map snd (filter (fun e => fst e =? f) kinds).
Definition middles_fine : bool := forallb (fun a => forallb (fun b => match lookup conversions a b with
  | Ok (KTwoStep _ m _) => forallb (fun ka => forallb (fun kb => has_kind_b m (middle ka kb)) (kinds_at b)) (kinds_at a)
  | _ => true end) (map fst kinds)) (map fst kinds).
Lemma middles_checked : middles_fine = true.
Proof. vm_compute. reflexivity. Qed.
Lemma middle_kind a ka b kb a' m b' : In (a, ka) kinds -> In (b, kb) kinds -> lookup conversions a b = Ok (KTwoStep a' m b') -> In (m, middle ka kb) kinds.
Proof.
  intros Ha Hb L. pose proof middles_checked as C. unfold middles_fine in C. rewrite forallb_forall in C. specialize (C a (in_map fst _ _ Ha)). cbv beta in C.
  rewrite forallb_forall in C. specialize (C b (in_map fst _ _ Hb)). cbv beta in C. rewrite L in C.
  assert (K : forall f k, In (f, k) kinds -> In k (kinds_at f)). { intros f k H. unfold kinds_at. apply in_map_iff. exists (f, k). split; [reflexivity|]. apply filter_In. split; [exact H|]. cbn [fst]. apply Z.eqb_refl. }
  rewrite forallb_forall in C. specialize (C ka (K _ _ Ha)). cbv beta in C. rewrite forallb_forall in C. specialize (C kb (K _ _ Hb)). cbv beta in C.
  apply existsb_exists in C. destruct C as ([f k] & Hin & E). cbn [fst snd] in E. apply andb_true_iff in E. destruct E as [E1 E2]. apply Z.eqb_eq in E1. apply kind_eqb_eq in E2. subst. exact Hin.
Qed.
Definition v210_fine : bool := forallb (fun b =>
  match lookup conversions v210 b with Ok (KTwoStep _ m _) => m =? S16_422_10BIT | _ => true end &&
  match lookup conversions b v210 with Ok (KTwoStep _ m _) => m =? S16_422_10BIT | _ => true end) formats.
Lemma v210_checked : v210_fine = true.
Proof. vm_compute. reflexivity. Qed.
Lemma middle_v210 b a' m b' : lookup conversions v210 b = Ok (KTwoStep a' m b') \/ lookup conversions b v210 = Ok (KTwoStep a' m b') -> m = S16_422_10BIT.
Proof.
  intros H. assert (F : In b formats).
  { destruct (in_dec Z.eq_dec b formats) as [F | F]; [exact F |]. exfalso. destruct H as [H | H]; [rewrite lookup_none in H by (right; exact F) | rewrite lookup_none in H by (left; exact F)]; discriminate H. }
  pose proof v210_checked as C. unfold v210_fine in C. rewrite forallb_forall in C. specialize (C b F). cbv beta in C. apply andb_true_iff in C. destruct C as [C1 C2].
  destruct H as [H | H]; [rewrite H in C1; apply Z.eqb_eq; exact C1 | rewrite H in C2; apply Z.eqb_eq; exact C2].
Qed.
