(** The conversions seen from [convert]. *)
From Coq Require Import Lia ZifyBool ZifyNat.
From Verif Require Import Base BaseProofs CogEnums VideoLayout LayoutProofs NpView NpViewProofs NpSpec NpGrainProofs NpConvert NpConvSpec NpConvProofs V210Proofs NpTable.
Ltac Zify.zify_post_hook ::= Z.div_mod_to_equations.

(** v210. *)
Lemma pack_lookup : lookup conversions S16_422_10BIT v210 = Ok KToV210.
Proof. vm_compute. reflexivity. Qed.
Lemma unpack_lookup : lookup conversions v210 S16_422_10BIT = Ok KFromV210.
Proof. vm_compute. reflexivity. Qed.

Lemma unpack fuel o v : v210_ok v -> exists g, convert (S fuel) conversions o v S16_422_10BIT = Ok g /\ has_kind g (yuv422 10) /\ same_size v g /\
  forall n x y, In n [CY; CU; CV] -> in_comp (yuv422 10) g n x y -> sample g n x y = v210_sample v n x y.
Proof.
  intros Hv. pose proof Hv as [Hf (Hw & Hh & _)]. unfold convert. rewrite Hf. change (v210 =? S16_422_10BIT) with false. cbv iota.
  assert (Hin : In (S16_422_10BIT, k10) kinds) by (cbn [In kinds]; tauto).
  destruct (new_has_kind S16_422_10BIT k10 (g_w v) (g_h v) Hin Hw Hh) as (g0 & -> & K0 & F0 & W0 & H0). cbn [rbind].
  rewrite unpack_lookup. cbn [rbind run_conv].
  destruct (from_v210_spec v g0 Hv K0) as (g & E & S & K & P); [split; congruence |]. exists g. split; [exact E |]. split; [exact K |].
  pose proof S as (_ & SW & SH & _). split; [split; congruence |].
  intros n x y Hn Hxy. apply P; [exact Hn |]. apply (in_comp_shape k10 g0 g n x y S). exact Hxy.
Qed.

Lemma pack fuel o g : has_kind g (yuv422 10) -> below g (yuv422 10) -> exists v, convert (S fuel) conversions o g v210 = Ok v /\ v210_ok v /\ v210_clean v /\ same_size g v /\
  forall n x y, In n [CY; CU; CV] -> in_comp (yuv422 10) g n x y -> v210_sample v n x y = sample g n x y.
Proof.
  intros Hk Hb. pose proof (k10_only g Hk) as Hf. pose proof Hk as [_ (Hw & Hh & _)]. unfold convert. rewrite Hf. change (S16_422_10BIT =? v210) with false. cbv iota.
  destruct (v210_new (g_w g) (g_h g) Hw Hh) as (v0 & -> & O0 & W0 & H0 & _). cbn [rbind]. rewrite pack_lookup. cbn [rbind run_conv].
  destruct (to_v210_samples g v0 Hk O0) as (v & E & O & S & P & Q); [split; congruence | exact Hb |]. exists v. split; [exact E |]. split; [exact O |].
  pose proof S as (_ & SW & SH & _). split; [| split; [split; congruence | exact P]].
  intros j y Hj Hy. rewrite words_eq in *. rewrite SW, W0 in *. rewrite SH, H0 in Hy. destruct (Q j y Hj Hy) as [Q1 Q2]. split; [lia | exact Q2].
Qed.

Lemma pack_unpack fuel o g : has_kind g (yuv422 10) -> below g (yuv422 10) ->
  exists v g', convert (S fuel) conversions o g v210 = Ok v /\ convert (S fuel) conversions o v S16_422_10BIT = Ok g' /\ has_kind g' (yuv422 10) /\ same_picture (yuv422 10) g g'.
Proof.
  intros Hk Hb. destruct (pack fuel o g Hk Hb) as (v & E & O & _ & [S1 S2] & P). destruct (unpack fuel o v O) as (g' & E' & K' & [S1' S2'] & P').
  exists v, g'. split; [exact E |]. split; [exact E' |]. split; [exact K' |]. split; [congruence |]. split; [congruence |].
  intros n x y Hn Hx Hy. rewrite P'; [rewrite P; [reflexivity | exact Hn | split; assumption] | exact Hn | split; [rewrite <- S1', <- S1 | rewrite <- S2', <- S2]; assumption].
Qed.

Lemma unpack_pack fuel o v : v210_ok v -> v210_clean v ->
  exists g v', convert (S fuel) conversions o v S16_422_10BIT = Ok g /\ convert (S fuel) conversions o g v210 = Ok v' /\ g_len v' = g_len v /\
    forall i, 0 <= i < g_len v -> g_data v' i = g_data v i.
Proof.
  intros Hv Hc. destruct (unpack fuel o v Hv) as (g & E & K & [S1 S2] & P).
  assert (Hb : below g (yuv422 10)).
  { intros n x y Hn Hxy. rewrite P by assumption. unfold v210_sample. destruct (v210_place n x) as [word field]. apply Z.mod_pos_bound. reflexivity. }
  destruct (pack fuel o g K Hb) as (v' & E' & O' & C' & [S1' S2'] & P'). exists g, v'. split; [exact E |]. split; [exact E' |].
  destruct (v210_shape v Hv) as (_ & _ & _ & L & _). destruct (v210_shape v' O') as (_ & _ & _ & L' & _).
  assert (HW : g_w v' = g_w v) by congruence. assert (HH : g_h v' = g_h v) by congruence.
  split; [rewrite L, L', HW, HH; reflexivity |]. intros i Hi. symmetry.
  apply (v210_equal v v'); try assumption; [split; congruence |].
  intros n x y Hn Hxy. assert (Hxy' : in_comp (yuv422 10) g n x y) by (unfold in_comp in *; rewrite <- S1, <- S2; exact Hxy).
  rewrite P' by assumption. rewrite P by assumption. reflexivity.
Qed.

(** One primitive conversion. *)
Definition one_step (k : conv) (a b : Z) : bool := match lookup conversions a b with Ok k' => match k, k' with
  | KCopyYuv, KCopyYuv | KCopyRgb, KCopyRgb | KMean444, KMean444 | KMean422, KMean422 | KDup422, KDup422 | KDup420, KDup420
  | KDownYuv, KDownYuv | KDownRgb, KDownRgb | KUpYuv, KUpYuv | KUpRgb, KUpRgb | KRgbToYuv, KRgbToYuv | KYuvToRgb, KYuvToRgb => true
  | _, _ => false end | Err _ => false end.

Lemma one_step_eq k a b : one_step k a b = true -> lookup conversions a b = Ok k.
Proof. unfold one_step. destruct (lookup conversions a b) as [k' |]; [| discriminate]. destruct k, k'; intros H; try discriminate; reflexivity. Qed.

Lemma convert_one fuel o k g a f b : has_kind g a -> In (f, b) kinds -> g_fmt g <> f -> one_step k (g_fmt g) f = true -> applies k a b = true ->
  even_size a (g_w g) (g_h g) -> even_size b (g_w g) (g_h g) ->
  exists g', convert (S fuel) conversions o g f = Ok g' /\ g_fmt g' = f /\ has_kind g' b /\ same_size g g' /\
    forall n x y, In n (names (k_model b)) -> in_comp b g' n x y -> sample g' n x y = meaning k o (g_fmt g) a b (sample g) n x y mod 2 ^ (8 * g_item g').
Proof.
  intros Ha Hb Hne H1 Hap Ea Eb. pose proof Ha as [_ (Hw & Hh & _)]. unfold convert. destruct (Z.eqb_spec (g_fmt g) f) as [Hcon | _]; [contradiction |].
  destruct (new_has_kind f b (g_w g) (g_h g) Hb Hw Hh) as (g0 & -> & K0 & F0 & W0 & H0). cbn [rbind]. rewrite (one_step_eq _ _ _ H1). cbn [rbind].
  destruct (prim_correct fuel conversions o k g a g0 b Hap Ha K0) as (g' & E & S & K & P); [split; congruence | exact Ea | exact Eb |].
  exists g'. split; [exact E |]. pose proof S as (SF & SW & SH & SI & _). split; [congruence |]. split; [exact K |]. split; [split; congruence |].
  intros n x y Hn Hxy. rewrite SI. apply P; [exact Hn |]. apply (in_comp_shape b g0 g' n x y S). exact Hxy.
Qed.

(** The bytes of an item follow from the depth. *)
Definition depth_item (d : Z) : Z := if d <=? 8 then 1 else if d <=? 16 then 2 else 4.
Lemma kind_item g k : has_kind g k -> g_item g = depth_item (k_depth k).
Proof.
  intros H. destruct (grain_views g k H) as (_ & _ & _ & Hi & _). destruct H as [H _].
  assert (C : forallb (fun e => match np_itemsize (fst e) with Ok i => i =? depth_item (k_depth (snd e)) | Err _ => false end) kinds = true) by (vm_compute; reflexivity).
  rewrite forallb_forall in C. specialize (C _ H). cbn [fst snd] in C. rewrite Hi in C. apply Z.eqb_eq. exact C.
Qed.

Lemma item_eq g a g' b : has_kind g a -> has_kind g' b -> k_depth a = k_depth b -> g_item g' = g_item g.
Proof. intros Ha Hb E. rewrite (kind_item g a Ha), (kind_item g' b Hb), E. reflexivity. Qed.

(** Which primitives the table has for which kinds. *)
Definition prim_for (a b : kind) : option conv :=
  match k_model a, k_model b with
  | MYuv, MYuv =>
      if same_sub a b then (if k_depth a =? k_depth b then Some KCopyYuv else if k_depth b <? k_depth a then Some KDownYuv else Some KUpYuv)
      else if negb (k_depth a =? k_depth b) then None
      else if same_sub a (yuv444 0) && same_sub b (yuv422 0) then Some KMean444
      else if same_sub a (yuv422 0) && same_sub b (yuv420 0) then Some KMean422
      else if same_sub a (yuv422 0) && same_sub b (yuv444 0) then Some KDup422
      else if same_sub a (yuv420 0) && same_sub b (yuv422 0) then Some KDup420
      else None
  | MRgb, MRgb => if k_depth a =? k_depth b then Some KCopyRgb else if k_depth b <? k_depth a then Some KDownRgb else Some KUpRgb
  | MRgb, MYuv => if (k_depth a =? k_depth b) && same_sub b (yuv444 0) then Some KRgbToYuv else None
  | MYuv, MRgb => if (k_depth a =? k_depth b) && same_sub a (yuv444 0) then Some KYuvToRgb else None
  end.

Lemma prim_checked : forallb (fun ea => forallb (fun eb =>
  (fst ea =? fst eb) || match prim_for (snd ea) (snd eb) with Some k => one_step k (fst ea) (fst eb) && applies k (snd ea) (snd eb) | None => true end) kinds) kinds = true.
Proof. vm_compute. reflexivity. Qed.

Lemma prim_known fa a fb b k : In (fa, a) kinds -> In (fb, b) kinds -> fa <> fb -> prim_for a b = Some k -> one_step k fa fb = true /\ applies k a b = true.
Proof.
  intros Ha Hb Hne E. pose proof prim_checked as C. rewrite forallb_forall in C. specialize (C _ Ha). rewrite forallb_forall in C. specialize (C _ Hb).
  cbn [fst snd] in C. destruct (Z.eqb_spec fa fb) as [Hcon | _]; [contradiction |]. cbn [orb] in C. rewrite E in C. apply andb_true_iff. exact C.
Qed.

Lemma convert_prim fuel o k g a f b : has_kind g a -> In (f, b) kinds -> g_fmt g <> f -> prim_for a b = Some k ->
  even_size a (g_w g) (g_h g) -> even_size b (g_w g) (g_h g) ->
  exists g', convert (S fuel) conversions o g f = Ok g' /\ g_fmt g' = f /\ has_kind g' b /\ same_size g g' /\
    forall n x y, In n (names (k_model b)) -> in_comp b g' n x y -> sample g' n x y = meaning k o (g_fmt g) a b (sample g) n x y mod 2 ^ (8 * g_item g').
Proof.
  intros Ha Hb Hne Hp Ea Eb. destruct (prim_known (g_fmt g) a f b k (proj1 Ha) Hb Hne Hp) as [H1 H2]. apply convert_one; assumption.
Qed.

Lemma same_sub_refl k : same_sub k k = true.
Proof. unfold same_sub. rewrite !Z.eqb_refl. reflexivity. Qed.

Lemma kind_rgb f k : In (f, k) kinds -> k_model k = MRgb -> same_sub k (yuv444 0) = true.
Proof. intros H M. destruct (kind_fact f k H) as (_ & _ & _ & _ & _ & Hm & _). rewrite M in Hm. destruct Hm as (H1 & H2 & _). unfold same_sub. rewrite H1, H2. reflexivity. Qed.

(** Formats of the same kind. *)
Lemma same_kind_copy fuel o g k f : has_kind g k -> In (f, k) kinds -> even_size k (g_w g) (g_h g) ->
  exists g', convert (S fuel) conversions o g f = Ok g' /\ g_fmt g' = f /\ has_kind g' k /\ same_picture k g g'.
Proof.
  intros Hg Hf He. destruct (Z.eq_dec (g_fmt g) f) as [E | Hne].
  - exists g. unfold convert. assert (Eb : (g_fmt g =? f) = true) by (apply Z.eqb_eq; exact E). rewrite Eb. split; [reflexivity |]. split; [exact E |]. split; [exact Hg |]. split; [reflexivity |]. split; [reflexivity |]. reflexivity.
  - assert (Hp : exists c, prim_for k k = Some c /\ (c = KCopyYuv \/ c = KCopyRgb)).
    { unfold prim_for. rewrite same_sub_refl, Z.eqb_refl. destruct (k_model k); eexists; (split; [reflexivity | tauto]). }
    destruct Hp as (c & Hp & Hc). destruct (convert_prim fuel o c g k f k Hg Hf Hne Hp He He) as (g' & E & F & K & [S1 S2] & P).
    exists g'. split; [exact E |]. split; [exact F |]. split; [exact K |]. split; [exact S1 |]. split; [exact S2 |].
    intros n x y Hn Hx Hy. rewrite P; [| exact Hn | split; [rewrite <- S1 | rewrite <- S2]; assumption].
    rewrite (item_eq g k g' k Hg K eq_refl).
    assert (Em : meaning c o (g_fmt g) k k (sample g) n x y = sample g n x y) by (destruct Hc as [-> | ->]; reflexivity).
    rewrite Em. symmetry. apply Z.mod_small. apply (sample_range g k); assumption.
Qed.

Lemma kind_unique f a b : In (f, a) kinds -> In (f, b) kinds -> a = b.
Proof.
  intros Ha Hb. assert (C : forallb (fun e => match kind_of (fst e) with Some k => (k_hs k =? k_hs (snd e)) && (k_vs k =? k_vs (snd e)) && (k_depth k =? k_depth (snd e)) && model_eqb (k_model k) (k_model (snd e)) | None => false end) kinds = true) by (vm_compute; reflexivity).
  rewrite forallb_forall in C. pose proof (C _ Ha) as C1. pose proof (C _ Hb) as C2. cbn [fst snd] in C1, C2. destruct (kind_of f) as [k |]; [| discriminate].
  repeat (apply andb_true_iff in C1; destruct C1 as [C1 ?]). repeat (apply andb_true_iff in C2; destruct C2 as [C2 ?]).
  apply model_eqb_eq in H, H2. destruct a as [am ah av ad], b as [bm bh bv bd]. cbn [k_hs k_vs k_depth k_model] in *. f_equal; [congruence | lia | lia | lia].
Qed.

(** Averaging and duplicating chroma. *)
Lemma mean_kinds fuel o g a f b k : has_kind g a -> In (f, b) kinds -> prim_for a b = Some k -> k = KMean444 \/ k = KMean422 ->
  even_size a (g_w g) (g_h g) -> even_size b (g_w g) (g_h g) ->
  let dx := if k_hs b =? k_hs a then 0 else 1 in let dy := 1 - dx in
  exists g', convert (S fuel) conversions o g f = Ok g' /\ g_fmt g' = f /\ has_kind g' b /\ same_size g g' /\
    (forall x y, in_comp b g' CY x y -> sample g' CY x y = sample g CY x y) /\
    (forall n x y, In n [CU; CV] -> in_comp b g' n x y ->
       let s1 := sample g n ((1 + dx) * x) ((1 + dy) * y) in let s2 := sample g n ((1 + dx) * x + dx) ((1 + dy) * y + dy) in
       s1 + s2 <= 2 * sample g' n x y <= s1 + s2 + 1 /\ Z.min s1 s2 <= sample g' n x y <= Z.max s1 s2).
Proof.
  intros Ha Hb Hp Hk Ea Eb dx dy.
  assert (Hsub : k_depth a = k_depth b /\ k_model a = MYuv /\ k_model b = MYuv /\ (k = KMean444 /\ k_hs a = 1 /\ k_vs a = 1 /\ k_hs b = 2 /\ k_vs b = 1 \/ k = KMean422 /\ k_hs a = 2 /\ k_vs a = 1 /\ k_hs b = 2 /\ k_vs b = 2)).
  { clear - Hp Hk. unfold prim_for in Hp. destruct (k_model a), (k_model b); try (repeat match type of Hp with context [if ?c then _ else _] => destruct c end; destruct Hk; congruence).
    destruct (same_sub a b); [repeat match type of Hp with context [if ?c then _ else _] => destruct c end; destruct Hk; congruence |].
    destruct (Z.eqb_spec (k_depth a) (k_depth b)) as [Ed | Ed]; cbn [negb] in Hp; [| discriminate]. split; [exact Ed |]. split; [reflexivity |]. split; [reflexivity |].
    destruct (same_sub a (yuv444 0) && same_sub b (yuv422 0)) eqn:E1.
    - apply andb_true_iff in E1. destruct E1 as [E1 E2]. apply sub_is in E1, E2. cbn [k_hs k_vs yuv444 yuv422] in E1, E2. left. injection Hp as <-. tauto.
    - destruct (same_sub a (yuv422 0) && same_sub b (yuv420 0)) eqn:E2.
      + apply andb_true_iff in E2. destruct E2 as [E2 E3]. apply sub_is in E2, E3. cbn [k_hs k_vs yuv420 yuv422] in E2, E3. right. injection Hp as <-. tauto.
      + repeat match type of Hp with context [if ?c then _ else _] => destruct c end; destruct Hk; congruence. }
  destruct Hsub as (Ed & Ma & Mb & Hs).
  assert (Hne : g_fmt g <> f).
  { intros E. destruct Ha as [Hin _]. rewrite E in Hin. assert (a = b); [| subst b; lia].
    exact (kind_unique f a b Hin Hb). }
  destruct (convert_prim fuel o k g a f b Ha Hb Hne Hp Ea Eb) as (g' & E & F & K & [S1 S2] & P).
  exists g'. split; [exact E |]. split; [exact F |]. split; [exact K |]. split; [split; assumption |].
  rewrite (item_eq g a g' b Ha K Ed) in P. split.
  - intros x y Hxy. rewrite P; [| rewrite Mb; left; reflexivity | exact Hxy].
    assert (Em : meaning k o (g_fmt g) a b (sample g) CY x y = sample g CY x y) by (destruct Hk as [-> | ->]; reflexivity). rewrite Em.
    destruct Hxy as [Hx Hy]. cbn [comp_w comp_h] in Hx, Hy. apply Z.mod_small. apply (sample_range g a); [exact Ha | rewrite Ma; left; reflexivity | cbn [comp_w]; lia | cbn [comp_h]; lia].
  - intros n x y Hn Hxy s1 s2. assert (Hnb : In n (names (k_model b))) by (rewrite Mb; apply chroma_in; exact Hn). assert (Hna : In n (names (k_model a))) by (rewrite Ma; apply chroma_in; exact Hn).
    rewrite P by assumption.
    assert (Em : meaning k o (g_fmt g) a b (sample g) n x y = halves_up s1 s2).
    { unfold s1, s2, dy, dx. assert (Hch : is_chroma n = true) by (destruct Hn as [<- | [<- | []]]; reflexivity).
      destruct Hs as [(-> & A1 & A2 & B1 & B2) | (-> & A1 & A2 & B1 & B2)]; cbn [meaning]; rewrite Hch, A1, B1; cbn [Z.eqb Pos.eqb];
        [change (1 + 1) with 2; change (1 - 1) with 0; change (1 + 0) with 1; replace (1 * y) with y by ring; replace (y + 0) with y by ring; reflexivity |
         change (1 - 0) with 1; change (1 + 1) with 2; change (1 + 0) with 1; replace (1 * x) with x by ring; replace (x + 0) with x by ring; reflexivity]. }
    rewrite Em.
    assert (R : 0 <= s1 < 2 ^ (8 * g_item g) /\ 0 <= s2 < 2 ^ (8 * g_item g)).
    { destruct Hxy as [Hx Hy]. rewrite <- S1 in Hx. rewrite <- S2 in Hy. unfold s1, s2, dy, dx.
      destruct Ea as [Ea1 Ea2]. destruct Eb as [Eb1 Eb2].
      assert (Hc : comp_w b n (g_w g) = g_w g / k_hs b /\ comp_h b n (g_h g) = g_h g / k_vs b /\ comp_w a n (g_w g) = g_w g / k_hs a /\ comp_h a n (g_h g) = g_h g / k_vs a)
        by (destruct Hn as [<- | [<- | []]]; cbn [comp_w comp_h]; tauto).
      destruct Hc as (C1 & C2 & C3 & C4). rewrite C1 in Hx. rewrite C2 in Hy.
      destruct Hs as [(_ & A1 & A2 & B1 & B2) | (_ & A1 & A2 & B1 & B2)]; rewrite ?A1, ?A2, ?B1, ?B2 in *; cbn [Z.eqb Pos.eqb];
        (split; apply (sample_range g a); try assumption; rewrite ?C3, ?C4, ?Z.div_1_r in *; clear - Hx Hy Eb1 Eb2; lia). }
    destruct R as [R1 R2]. clearbody s1 s2. pose proof (halves_up_range s1 s2) as Hr. rewrite Z.mod_small by lia. unfold halves_up in *. lia.
Qed.

Lemma dup_kinds fuel o g a f b k : has_kind g a -> In (f, b) kinds -> prim_for a b = Some k -> k = KDup422 \/ k = KDup420 ->
  even_size a (g_w g) (g_h g) -> even_size b (g_w g) (g_h g) ->
  let dx := if k_hs b =? k_hs a then 0 else 1 in let dy := 1 - dx in
  exists g', convert (S fuel) conversions o g f = Ok g' /\ g_fmt g' = f /\ has_kind g' b /\ same_size g g' /\
    (forall x y, in_comp b g' CY x y -> sample g' CY x y = sample g CY x y) /\
    (forall n x y, In n [CU; CV] -> in_comp b g' n x y -> sample g' n x y = sample g n (x / (1 + dx)) (y / (1 + dy))).
Proof.
  intros Ha Hb Hp Hk Ea Eb dx dy.
  assert (Hsub : k_depth a = k_depth b /\ k_model a = MYuv /\ k_model b = MYuv /\ (k = KDup422 /\ k_hs a = 2 /\ k_vs a = 1 /\ k_hs b = 1 /\ k_vs b = 1 \/ k = KDup420 /\ k_hs a = 2 /\ k_vs a = 2 /\ k_hs b = 2 /\ k_vs b = 1)).
  { clear - Hp Hk. unfold prim_for in Hp. destruct (k_model a), (k_model b); try (repeat match type of Hp with context [if ?c then _ else _] => destruct c end; destruct Hk; congruence).
    destruct (same_sub a b); [repeat match type of Hp with context [if ?c then _ else _] => destruct c end; destruct Hk; congruence |].
    destruct (Z.eqb_spec (k_depth a) (k_depth b)) as [Ed | Ed]; cbn [negb] in Hp; [| discriminate]. split; [exact Ed |]. split; [reflexivity |]. split; [reflexivity |].
    destruct (same_sub a (yuv444 0) && same_sub b (yuv422 0)); [destruct Hk; congruence |]. destruct (same_sub a (yuv422 0) && same_sub b (yuv420 0)); [destruct Hk; congruence |].
    destruct (same_sub a (yuv422 0) && same_sub b (yuv444 0)) eqn:E1.
    - apply andb_true_iff in E1. destruct E1 as [E1 E2]. apply sub_is in E1, E2. cbn [k_hs k_vs yuv444 yuv422] in E1, E2. left. injection Hp as <-. tauto.
    - destruct (same_sub a (yuv420 0) && same_sub b (yuv422 0)) eqn:E2; [| discriminate].
      apply andb_true_iff in E2. destruct E2 as [E2 E3]. apply sub_is in E2, E3. cbn [k_hs k_vs yuv420 yuv422] in E2, E3. right. injection Hp as <-. tauto. }
  destruct Hsub as (Ed & Ma & Mb & Hs).
  assert (Hne : g_fmt g <> f).
  { intros E. destruct Ha as [Hin _]. rewrite E in Hin. assert (a = b); [| subst b; lia]. exact (kind_unique f a b Hin Hb). }
  destruct (convert_prim fuel o k g a f b Ha Hb Hne Hp Ea Eb) as (g' & E & F & K & [S1 S2] & P).
  exists g'. split; [exact E |]. split; [exact F |]. split; [exact K |]. split; [split; assumption |].
  rewrite (item_eq g a g' b Ha K Ed) in P. split.
  - intros x y Hxy. rewrite P; [| rewrite Mb; left; reflexivity | exact Hxy].
    assert (Em : meaning k o (g_fmt g) a b (sample g) CY x y = sample g CY x y) by (destruct Hk as [-> | ->]; reflexivity). rewrite Em.
    destruct Hxy as [Hx Hy]. cbn [comp_w comp_h] in Hx, Hy. apply Z.mod_small. apply (sample_range g a); [exact Ha | rewrite Ma; left; reflexivity | cbn [comp_w]; lia | cbn [comp_h]; lia].
  - intros n x y Hn Hxy. assert (Hnb : In n (names (k_model b))) by (rewrite Mb; apply chroma_in; exact Hn). assert (Hna : In n (names (k_model a))) by (rewrite Ma; apply chroma_in; exact Hn).
    rewrite P by assumption.
    assert (Em : meaning k o (g_fmt g) a b (sample g) n x y = sample g n (x / (1 + dx)) (y / (1 + dy))).
    { unfold dy, dx. assert (Hch : is_chroma n = true) by (destruct Hn as [<- | [<- | []]]; reflexivity).
      destruct Hs as [(-> & A1 & A2 & B1 & B2) | (-> & A1 & A2 & B1 & B2)]; cbn [meaning]; rewrite Hch, A1, B1; cbn [Z.eqb Pos.eqb];
        [change (1 + 1) with 2; change (1 - 1) with 0; change (1 + 0) with 1; rewrite Z.div_1_r; reflexivity |
         change (1 - 0) with 1; change (1 + 1) with 2; change (1 + 0) with 1; rewrite Z.div_1_r; reflexivity]. }
    rewrite Em. apply Z.mod_small. destruct Hxy as [Hx Hy]. rewrite <- S1 in Hx. rewrite <- S2 in Hy. unfold dy, dx.
    destruct Ea as [Ea1 Ea2]. destruct Eb as [Eb1 Eb2].
    assert (Hc : comp_w b n (g_w g) = g_w g / k_hs b /\ comp_h b n (g_h g) = g_h g / k_vs b /\ comp_w a n (g_w g) = g_w g / k_hs a /\ comp_h a n (g_h g) = g_h g / k_vs a)
      by (destruct Hn as [<- | [<- | []]]; cbn [comp_w comp_h]; tauto).
    destruct Hc as (C1 & C2 & C3 & C4). rewrite C1 in Hx. rewrite C2 in Hy.
    destruct Hs as [(_ & A1 & A2 & B1 & B2) | (_ & A1 & A2 & B1 & B2)]; rewrite ?A1, ?A2, ?B1, ?B2 in *; cbn [Z.eqb Pos.eqb];
      (apply (sample_range g a); try assumption; rewrite ?C3, ?C4, ?Z.div_1_r in *; clear - Hx Hy Ea1 Ea2; lia).
Qed.

Lemma same_mean s m : s + s <= 2 * m <= s + s + 1 -> m = s.
Proof. lia. Qed.

(** Duplicating and averaging again. *)
Lemma dup_mean fuel o g a f b f' kd km : has_kind g a -> In (f, b) kinds -> In (f', a) kinds -> prim_for a b = Some kd -> prim_for b a = Some km ->
  (kd = KDup422 /\ km = KMean444 \/ kd = KDup420 /\ km = KMean422) -> k_model a = MYuv ->
  even_size a (g_w g) (g_h g) -> even_size b (g_w g) (g_h g) ->
  exists g1 g2, convert (S fuel) conversions o g f = Ok g1 /\ convert (S fuel) conversions o g1 f' = Ok g2 /\ has_kind g2 a /\ same_picture a g g2.
Proof.
  intros Ha Hf Hf' Hd Hm Hk Ma Ea Eb.
  destruct (dup_kinds fuel o g a f b kd Ha Hf Hd) as (g1 & E1 & F1 & K1 & [S1 S2] & P1 & P2); [tauto | exact Ea | exact Eb |].
  destruct (mean_kinds fuel o g1 b f' a km K1 Hf' Hm) as (g2 & E2 & F2 & K2 & [S3 S4] & Q1 & Q2); [tauto | rewrite <- S1, <- S2; exact Eb | rewrite <- S1, <- S2; exact Ea |].
  exists g1, g2. split; [exact E1 |]. split; [exact E2 |]. split; [exact K2 |]. split; [congruence |]. split; [congruence |].
  assert (Hs : k_model b = MYuv /\ (k_hs a = 2 /\ k_hs b = 1 /\ k_vs a = 1 /\ k_vs b = 1 \/ k_hs a = 2 /\ k_hs b = 2 /\ k_vs a = 2 /\ k_vs b = 1)).
  { destruct (prim_known (g_fmt g1) b f' a km (proj1 K1) Hf') as [_ Hap]; [| exact Hm |].
    - intros E. rewrite <- E in Hf'. pose proof (kind_unique _ _ _ (proj1 K1) Hf') as <-. unfold prim_for in Hd. rewrite Ma, same_sub_refl, Z.eqb_refl in Hd. destruct Hk as [[-> _] | [-> _]]; discriminate.
    - destruct Hk as [[_ ->] | [_ ->]]; cbn [applies] in Hap; repeat (apply andb_true_iff in Hap; destruct Hap as [Hap ?]); apply model_eqb_eq in Hap; (split; [exact Hap |]);
        apply sub_is in H, H0; cbn [k_hs k_vs yuv444 yuv422 yuv420] in H, H0; lia. }
  destruct Hs as [Mb Hs].
  intros n x y Hn Hx Hy. rewrite Ma in Hn. cbn [names In] in Hn.
  assert (Hxy : in_comp a g2 n x y) by (split; [rewrite <- S3, <- S1; exact Hx | rewrite <- S4, <- S2; exact Hy]).
  destruct Hn as [<- | Hn].
  - rewrite Q1 by exact Hxy. rewrite P1; [reflexivity |]. split; [rewrite <- S1; exact Hx | rewrite <- S2; exact Hy].
  - assert (Hn' : In n [CU; CV]) by (cbn [In]; tauto). specialize (Q2 n x y Hn' Hxy). cbv zeta in Q2. destruct Q2 as [Q2 _].
    assert (Hc : comp_w b n (g_w g) = g_w g / k_hs b /\ comp_h b n (g_h g) = g_h g / k_vs b /\ comp_w a n (g_w g) = g_w g / k_hs a /\ comp_h a n (g_h g) = g_h g / k_vs a)
      by (destruct Hn' as [<- | [<- | []]]; cbn [comp_w comp_h]; tauto).
    destruct Hc as (C1 & C2 & C3 & C4). rewrite C3 in Hx. rewrite C4 in Hy. destruct Ea as [Ea1 Ea2].
    rewrite !P2 in Q2; try exact Hn'.
    + symmetry. apply same_mean. destruct Hs as [(A1 & A2 & A3 & A4) | (A1 & A2 & A3 & A4)]; rewrite A1, A2 in *; cbn [Z.eqb Pos.eqb] in Q2.
      * replace ((1 + 1) * x / (1 + 1)) with x in Q2 by (clear; lia). replace (((1 + 1) * x + 1) / (1 + 1)) with x in Q2 by (clear; lia).
        replace ((1 + (1 - 1)) * y / (1 + (1 - 1))) with y in Q2 by (clear; lia). replace (((1 + (1 - 1)) * y + (1 - 1)) / (1 + (1 - 1))) with y in Q2 by (clear; lia). exact Q2.
      * replace ((1 + 0) * x / (1 + 0)) with x in Q2 by (clear; lia). replace (((1 + 0) * x + 0) / (1 + 0)) with x in Q2 by (clear; lia).
        replace ((1 + (1 - 0)) * y / (1 + (1 - 0))) with y in Q2 by (clear; lia). replace (((1 + (1 - 0)) * y + (1 - 0)) / (1 + (1 - 0))) with y in Q2 by (clear; lia). exact Q2.
    + split; [rewrite <- S1, C1 | rewrite <- S2, C2]; destruct Hs as [(A1 & A2 & A3 & A4) | (A1 & A2 & A3 & A4)]; rewrite A1, A2, A3, A4 in *; cbn [Z.eqb Pos.eqb]; rewrite ?Z.div_1_r in *; clear - Hx Hy Ea1 Ea2; lia.
    + split; [rewrite <- S1, C1 | rewrite <- S2, C2]; destruct Hs as [(A1 & A2 & A3 & A4) | (A1 & A2 & A3 & A4)]; rewrite A1, A2, A3, A4 in *; cbn [Z.eqb Pos.eqb]; rewrite ?Z.div_1_r in *; clear - Hx Hy Ea1 Ea2; lia.
Qed.
