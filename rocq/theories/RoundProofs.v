(** Conversions to finer formats and back: pictures. *)
From Coq Require Import Lia ZifyBool ZifyNat.
From Verif Require Import Base BaseProofs CogEnums VideoLayout LayoutProofs NpView NpViewProofs NpSpec NpGrainProofs NpConvert NpConvSpec NpConvProofs V210Proofs NpTable NpTheorems NpDepth RoundSpec.
Ltac Zify.zify_post_hook ::= Z.div_mod_to_equations.

Lemma not_v210 f k : In (f, k) kinds -> f <> v210.
Proof.
  intros I E. assert (C : forallb (fun e => negb (fst e =? v210)) kinds = true) by (vm_compute; reflexivity). rewrite forallb_forall in C. specialize (C _ I). cbn [fst] in C. lia.
Qed.
Lemma pixel_kind g k n x y : In (g_fmt g, k) kinds -> pixel g n x y = sample g n x y.
Proof. intros I. unfold pixel. pose proof (not_v210 _ _ I). replace (g_fmt g =? v210) with false by lia. reflexivity. Qed.
Lemma pixel_v210 g n x y : g_fmt g = v210 -> pixel g n x y = v210_sample g n x y.
Proof. intros E. unfold pixel. rewrite E. reflexivity. Qed.

(** A conversion through another format is the two conversions. *)
Lemma via t fuel o g f m g1 g' : g_fmt g <> f -> g_fmt g <> m -> m <> f ->
  (lookup t (g_fmt g) f = Ok (KTwoStep (g_fmt g) m f) \/ exists k1 k2, lookup t (g_fmt g) f = Ok (KCompose k1 m k2) /\ lookup t (g_fmt g) m = Ok k1 /\ lookup t m f = Ok k2) ->
  convert fuel t o g m = Ok g1 -> g_fmt g1 = m -> same_size g g1 -> convert fuel t o g1 f = Ok g' -> convert (S fuel) t o g f = Ok g'.
Proof.
  intros N1 N2 N3 L C1 F1 [SW SH] C2. unfold convert in *. rewrite F1 in C2. rewrite <- SW, <- SH in C2.
  replace (g_fmt g =? f) with false by lia. replace (g_fmt g =? m) with false in C1 by lia. replace (m =? f) with false in C2 by lia.
  destruct (ng_new m (g_w g) (g_h g)) as [gm|] eqn:EM; [|discriminate C1]. cbn [rbind] in C1. destruct (ng_new f (g_w g) (g_h g)) as [gf|]; [|discriminate C2]. cbn [rbind] in *.
  destruct L as [L|(k1 & k2 & L & L1 & L2)].
  - rewrite L. cbn [rbind run_conv]. rewrite EM. cbn [rbind]. destruct (lookup t (g_fmt g) m) as [k1|]; [|discriminate C1]. cbn [rbind] in *. rewrite C1. cbn [rbind].
    destruct (lookup t m f) as [k2|]; [|discriminate C2]. exact C2.
  - rewrite L. cbn [rbind run_conv]. rewrite EM. cbn [rbind]. rewrite L1 in C1. cbn [rbind] in C1. rewrite C1. cbn [rbind]. rewrite L2 in C2. exact C2.
Qed.

(** How the table goes from a kind to another of the same colours and depth. *)
Definition is_prim (k : conv) : bool := match k with KCopyYuv | KCopyRgb | KMean444 | KMean422 | KDup422 | KDup420 => true | _ => false end.
Definition mid_of (k : kind) : list Z := map fst (filter (fun e => kind_eqb (snd e) k) kinds).
Definition conv_same (k : conv) (r : res conv) : bool := match r with Ok k' => match k, k' with
  | KMean444, KMean444 | KMean422, KMean422 | KDup422, KDup422 | KDup420, KDup420 => true | _, _ => false end | Err _ => false end.
Definition prim_ok (a b : kind) : bool := match prim_for a b with Some k => is_prim k | None => false end.
Definition route (t : ctable) (ea eb : Z * kind) : bool :=
  let '(fa, a) := ea in let '(fb, b) := eb in
  if negb (model_eqb (k_model a) (k_model b) && (k_depth a =? k_depth b)) || (fa =? fb) then true
  else match lookup t fa fb with
  | Ok (KCompose k1 m k2) => conv_same k1 (lookup t fa m) && conv_same k2 (lookup t m fb) && member (mid_of (yuv422 (k_depth a))) m && negb (fa =? m) && negb (m =? fb) && negb (fa =? v210) && negb (fb =? v210) &&
      prim_ok a (yuv422 (k_depth a)) && prim_ok (yuv422 (k_depth a)) b && ((k_hs a =? 2) || (k_hs b =? 2)) && model_eqb (k_model a) MYuv
  | Ok (KTwoStep a' m b') => (a' =? fa) && (b' =? fb) && (m =? S16_422_10BIT) && negb (fa =? m) && negb (m =? fb) &&
      ((fa =? v210) && negb (fb =? v210) && prim_ok (yuv422 10) b || negb (fa =? v210) && (fb =? v210) && prim_ok a (yuv422 10))
  | Ok KFromV210 => (fa =? v210) && (fb =? S16_422_10BIT)
  | Ok KToV210 => (fb =? v210) && (fa =? S16_422_10BIT)
  | Ok _ => negb (fa =? v210) && negb (fb =? v210) && prim_ok a b
  | Err _ => false
  end.
Lemma routes : forallb (fun ea => forallb (route conversions ea) pictured) pictured = true.
Proof. vm_compute. reflexivity. Qed.
(** The same as cases. *)
Definition through (t : ctable) (fa m fb : Z) : Prop :=
  lookup t fa fb = Ok (KTwoStep fa m fb) \/ exists k1 k2, lookup t fa fb = Ok (KCompose k1 m k2) /\ lookup t fa m = Ok k1 /\ lookup t m fb = Ok k2.
Definition primed (a b : kind) : Prop := exists p, prim_for a b = Some p /\ is_prim p = true.
Inductive way (t : ctable) (fa : Z) (a : kind) (fb : Z) (b : kind) : Prop :=
| w_prim : fa <> v210 -> fb <> v210 -> primed a b -> way t fa a fb b
| w_from : fa = v210 -> fb = S16_422_10BIT -> way t fa a fb b
| w_to : fb = v210 -> fa = S16_422_10BIT -> way t fa a fb b
| w_chroma m : through t fa m fb -> In (m, yuv422 (k_depth a)) kinds -> fa <> m -> m <> fb -> fa <> v210 -> fb <> v210 -> primed a (yuv422 (k_depth a)) -> primed (yuv422 (k_depth a)) b -> k_hs a = 2 \/ k_hs b = 2 -> k_model a = MYuv -> way t fa a fb b
| w_unpack : through t fa S16_422_10BIT fb -> fa <> S16_422_10BIT -> S16_422_10BIT <> fb -> fa = v210 -> fb <> v210 -> primed (yuv422 10) b -> way t fa a fb b
| w_pack : through t fa S16_422_10BIT fb -> fa <> S16_422_10BIT -> S16_422_10BIT <> fb -> fa <> v210 -> fb = v210 -> primed a (yuv422 10) -> way t fa a fb b.
Ltac ands R := repeat match type of R with (_ && _)%bool = true => let H := fresh "H" in apply andb_prop in R; destruct R as [R H] end.
Lemma prim_ok_is a b : prim_ok a b = true -> primed a b.
Proof. unfold prim_ok, primed. destruct (prim_for a b) as [p|]; [|discriminate]. intros H. exists p. auto. Qed.
Lemma conv_same_is k r : conv_same k r = true -> r = Ok k.
Proof. unfold conv_same. destruct r as [k'|]; [|discriminate]. destruct k, k'; intros H; try discriminate H; reflexivity. Qed.
Lemma neq_is x y : negb (x =? y) = true -> x <> y.
Proof. lia. Qed.
Lemma mids (l : list (Z * kind)) k m : existsb (Z.eqb m) (map fst (filter (fun e => kind_eqb (snd e) k) l)) = true -> In (m, k) l.
Proof.
  intros E. apply existsb_exists in E as (m' & IM & EM). apply Z.eqb_eq in EM. subst m'. apply in_map_iff in IM as ([m' k'] & EM & IM). cbn [fst] in EM. subst m'. apply filter_In in IM as [IM KE]. cbn [snd] in KE. apply kind_eqb_eq in KE. subst k'. exact IM.
Qed.
Lemma mid_in k m : member (mid_of k) m = true -> In (m, k) kinds.
Proof. unfold member, mid_of. exact (mids kinds k m). Qed.
Lemma route_way t fa a fb b : route t (fa, a) (fb, b) = true -> k_model a = k_model b -> k_depth a = k_depth b -> fa <> fb -> way t fa a fb b.
Proof.
  intros R M D NE. unfold route in R. replace (negb (model_eqb (k_model a) (k_model b) && (k_depth a =? k_depth b)) || (fa =? fb)) with false in R by (rewrite M, D; destruct (k_model b); cbn [model_eqb andb negb orb]; lia).
  destruct (lookup t fa fb) as [p|] eqn:L; [|discriminate R]. destruct p; ands R.
  1-12: apply w_prim; [apply neq_is; assumption|apply neq_is; assumption|apply prim_ok_is; assumption].
  - apply w_from; apply Z.eqb_eq; assumption.
  - apply w_to; apply Z.eqb_eq; assumption.
  - apply conv_same_is in R. apply conv_same_is in H8. apply (w_chroma t fa a fb b mid); try (apply neq_is; assumption); try (apply prim_ok_is; assumption).
    + right. exists p1, p2. auto.
    + exact (mid_in _ _ H7).
    + apply orb_prop in H0 as [H0|H0]; apply Z.eqb_eq in H0; auto.
    + apply model_eqb_eq in H. exact H.
  - apply Z.eqb_eq in R, H3, H2. subst. apply neq_is in H0, H1. apply orb_prop in H as [T|T]; ands T.
    + apply Z.eqb_eq in T. apply w_unpack; try assumption; [left; exact L|apply neq_is; assumption|apply prim_ok_is; assumption].
    + apply Z.eqb_eq in H2. apply w_pack; try assumption; [left; exact L|apply neq_is; assumption|apply prim_ok_is; assumption].
Qed.

Lemma kind_subs f k : In (f, k) kinds -> (k_hs k = 1 /\ k_vs k = 1) \/ (k_model k = MYuv /\ k_hs k = 2 /\ (k_vs k = 1 \/ k_vs k = 2)).
Proof.
  intros I. assert (C : forallb (fun e => let k := snd e in (k_hs k =? 1) && (k_vs k =? 1) || model_eqb (k_model k) MYuv && (k_hs k =? 2) && ((k_vs k =? 1) || (k_vs k =? 2))) kinds = true) by (vm_compute; reflexivity).
  rewrite forallb_forall in C. specialize (C _ I). cbn [snd] in C. cbv zeta in C. apply orb_true_iff in C as [C|C]; [left; lia|right]. apply andb_true_iff in C as [C C2]. apply andb_true_iff in C as [C C1].
  apply model_eqb_eq in C. split; [exact C|]. lia.
Qed.
Lemma pictured_kind f k : In (f, k) pictured -> In (f, k) kinds \/ f = v210 /\ k = yuv422 10.
Proof. intros I. apply in_app_or in I as [I|[I|[]]]; [left; exact I|right]. injection I as <- <-. split; reflexivity. Qed.
Lemma pictured_even f k w h : In (f, k) pictured -> w mod 2 = 0 -> h mod 2 = 0 -> even_size k w h.
Proof.
  intros I W H. apply pictured_kind in I as [I|[_ ->]].
  - destruct (kind_subs f k I) as [[E F]|(_ & E & [F|F])]; unfold even_size; rewrite E, F, ?Z.mod_1_r; auto.
  - split; cbn [k_hs k_vs yuv422]; [exact W|apply Z.mod_1_r].
Qed.
Lemma pictured_subs f k : In (f, k) pictured -> (k_hs k = 1 /\ k_vs k = 1) \/ (k_model k = MYuv /\ k_hs k = 2 /\ (k_vs k = 1 \/ k_vs k = 2)).
Proof. intros I. apply pictured_kind in I as [I|[_ ->]]; [exact (kind_subs f k I)|right; cbn [k_model k_hs k_vs yuv422]; auto]. Qed.

Lemma kind_eqb_refl k : kind_eqb k k = true.
Proof. unfold kind_eqb. rewrite same_sub_refl, Z.eqb_refl. destruct (k_model k); reflexivity. Qed.

(** One of the simple conversions: where the sample comes from. *)
Definition simple (p : conv) (a b : kind) : Prop :=
  (p = KCopyYuv \/ p = KCopyRgb) /\ k_hs a = k_hs b /\ k_vs a = k_vs b \/ p = KMean444 /\ k_hs a = 1 /\ k_vs a = 1 /\ k_hs b = 2 /\ k_vs b = 1 \/ p = KMean422 /\ k_hs a = 2 /\ k_vs a = 1 /\ k_hs b = 2 /\ k_vs b = 2 \/
  p = KDup422 /\ k_hs a = 2 /\ k_vs a = 1 /\ k_hs b = 1 /\ k_vs b = 1 \/ p = KDup420 /\ k_hs a = 2 /\ k_vs a = 2 /\ k_hs b = 2 /\ k_vs b = 1.
Lemma simple_is p a b : applies p a b = true -> is_prim p = true -> simple p a b.
Proof.
  intros A P. unfold simple. destruct p; try discriminate P; cbn [applies] in A; repeat (apply andb_true_iff in A; destruct A as [A ?]).
  1, 2: left; apply sub_is in H0; destruct H0; split; [auto|split; assumption].
  all: apply sub_is in H, H0; cbn [k_hs k_vs yuv444 yuv422 yuv420] in H, H0; destruct H, H0; right.
  - left. auto.
  - right. left. auto.
  - right. right. left. auto.
  - right. right. right. auto.
Qed.
Lemma half_same s : halves_up s s = s.
Proof. unfold halves_up. lia. Qed.
Definition spot (k a b : kind) (w h : Z) (n : cname) (x y x' y' : Z) : Prop :=
  0 <= x' < comp_w a n w /\ 0 <= y' < comp_h a n h /\ across k a n x' = across k b n x /\ down k a n y' = down k b n y.
Lemma meant k (s t : cname -> Z -> Z -> Z) a b p o fi w h n x y : simple p a b -> (k_hs k = 1 \/ k_hs k = 2) -> (k_vs k = 1 \/ k_vs k = 2) -> k_hs a <= k_hs k -> k_vs a <= k_vs k -> k_hs b <= k_hs k -> k_vs b <= k_vs k ->
  even_size a w h -> even_size b w h -> (forall x y, 0 <= x < comp_w a n w -> 0 <= y < comp_h a n h -> s n x y = t n (across k a n x) (down k a n y)) ->
  0 <= x < comp_w b n w -> 0 <= y < comp_h b n h ->
  exists x' y', spot k a b w h n x y x' y' /\ meaning p o fi a b s n x y = s n x' y'.
Proof.
  intros SI KH KV HA VA HB VB [EA1 EA2] [EB1 EB2] Q X Y.
  assert (U : forall x1 y1 x2 y2, spot k a b w h n x y x1 y1 -> spot k a b w h n x y x2 y2 -> s n x1 y1 = s n x2 y2).
  { intros x1 y1 x2 y2 (R1 & R2 & R3 & R4) (T1 & T2 & T3 & T4). rewrite !Q by assumption. congruence. }
  destruct (is_chroma n) eqn:CH.
  - assert (M : comp_w a n w = w / k_hs a /\ comp_h a n h = h / k_vs a /\ comp_w b n w = w / k_hs b /\ comp_h b n h = h / k_vs b /\ (forall x, across k a n x = x * k_hs a / k_hs k) /\ (forall y, down k a n y = y * k_vs a / k_vs k) /\
      (forall x, across k b n x = x * k_hs b / k_hs k) /\ (forall y, down k b n y = y * k_vs b / k_vs k)) by (destruct n; try discriminate CH; repeat split).
    destruct M as (M1 & M2 & M3 & M4 & M5 & M6 & M7 & M8).
    assert (SP : forall x1 y1, 0 <= x1 < w / k_hs a -> 0 <= y1 < h / k_vs a -> x1 * k_hs a / k_hs k = x * k_hs b / k_hs k -> y1 * k_vs a / k_vs k = y * k_vs b / k_vs k -> spot k a b w h n x y x1 y1).
    { intros. unfold spot. rewrite M1, M2, M5, M6, M7, M8. auto. }
    rewrite M3 in X. rewrite M4 in Y. clear M1 M2 M3 M4 M5 M6 M7 M8 Q.
    destruct SI as [(P & A1 & A2)|[(-> & A1 & A2 & B1 & B2)|[(-> & A1 & A2 & B1 & B2)|[(-> & A1 & A2 & B1 & B2)|(-> & A1 & A2 & B1 & B2)]]]].
    + exists x, y. rewrite A1, A2 in *. split; [apply SP; auto|destruct P as [-> | ->]; reflexivity].
    + rewrite A1, A2, B1, B2 in *. assert (K2 : k_hs k = 2) by lia. rewrite K2 in *. rewrite !Z.div_1_r in *. exists (2 * x), y. cbn [meaning]. rewrite CH.
      assert (S1 : spot k a b w h n x y (2 * x) y) by (apply SP; [lia|lia|f_equal; ring|reflexivity]).
      assert (S2 : spot k a b w h n x y (2 * x + 1) y) by (apply SP; [lia|lia|clear; lia|reflexivity]).
      split; [exact S1|]. rewrite (U _ _ _ _ S2 S1). apply half_same.
    + rewrite A1, A2, B1, B2 in *. assert (K2 : k_vs k = 2) by lia. rewrite K2 in *. rewrite ?Z.div_1_r in *. exists x, (2 * y). cbn [meaning]. rewrite CH.
      assert (S1 : spot k a b w h n x y x (2 * y)) by (apply SP; [lia|lia|reflexivity|f_equal; ring]).
      assert (S2 : spot k a b w h n x y x (2 * y + 1)) by (apply SP; [lia|lia|reflexivity|clear; lia]).
      split; [exact S1|]. rewrite (U _ _ _ _ S2 S1). apply half_same.
    + rewrite A1, A2, B1, B2 in *. assert (K2 : k_hs k = 2) by lia. rewrite K2 in *. rewrite ?Z.div_1_r in *. exists (x / 2), y. cbn [meaning]. rewrite CH. split; [|reflexivity].
      apply SP; [clear - X EA1; lia|exact Y|clear; lia|reflexivity].
    + rewrite A1, A2, B1, B2 in *. assert (K2 : k_vs k = 2) by lia. rewrite K2 in *. rewrite ?Z.div_1_r in *. exists x, (y / 2). cbn [meaning]. rewrite CH. split; [|reflexivity].
      apply SP; [exact X|clear - Y EA2; lia|reflexivity|clear; lia].
  - exists x, y. assert (M : comp_w a n w = comp_w b n w /\ comp_h a n h = comp_h b n h /\ across k a n x = across k b n x /\ down k a n y = down k b n y) by (destruct n; try discriminate CH; repeat split).
    destruct M as (M1 & M2 & M3 & M4). split; [unfold spot; rewrite M1, M2; auto|].
    destruct SI as [([-> | ->] & _)|[(-> & _)|[(-> & _)|[(-> & _)|(-> & _)]]]]; cbn [meaning]; rewrite ?CH; reflexivity.
Qed.
Lemma prim_names a b p : prim_for a b = Some p -> is_prim p = true -> k_depth a = k_depth b.
Proof.
  unfold prim_for. intros P I. destruct (k_model a), (k_model b); repeat match type of P with context [if ?c then _ else _] => destruct c eqn:? end; try discriminate P; injection P as <-; try discriminate I; lia.
Qed.
Lemma direct fuel o f0 k g0 g a f b p : In (f0, k) pictured -> has_kind g a -> In (f, b) kinds -> g_fmt g <> f -> prim_for a b = Some p -> is_prim p = true -> finer a k -> finer b k ->
  g_w g mod 2 = 0 -> g_h g mod 2 = 0 -> carried k g0 a g ->
  exists g', convert (S fuel) conversions o g f = Ok g' /\ g_fmt g' = f /\ has_kind g' b /\ same_size g g' /\ carried k g0 b g'.
Proof.
  intros I0 HG IB NE P PR (MA & DA & HA & VA) (MB & DB & HB & VB) EW EH [[SW SH] CA]. pose proof HG as [IA _].
  pose proof (even_all _ _ _ _ IA EW EH) as EA. pose proof (even_all _ _ (g_w g) (g_h g) IB EW EH) as EB.
  destruct (convert_prim fuel o p g a f b HG IB NE P EA EB) as (g' & E & F & K & [W H] & S). exists g'. split; [exact E|]. split; [exact F|]. split; [exact K|]. split; [split; assumption|]. split; [split; congruence|].
  intros n x y N X. rewrite (pixel_kind g' b) by exact (proj1 K). rewrite S by (try assumption; rewrite MB; exact N).
  destruct (prim_known (g_fmt g) a f b p IA IB NE P) as [_ AP]. pose proof (simple_is p a b AP PR) as SI.
  assert (KH : (k_hs k = 1 \/ k_hs k = 2) /\ (k_vs k = 1 \/ k_vs k = 2)) by (pose proof (pictured_subs f0 k I0) as SK; clear - SK; lia).
  destruct X as [X Y]. rewrite <- W in X. rewrite <- H in Y.
  destruct (meant k (sample g) (pixel g0) a b p o (g_fmt g) (g_w g) (g_h g) n x y SI (proj1 KH) (proj2 KH) HA VA HB VB EA EB) as (x' & y' & (R1 & R2 & R3 & R4) & EQ); [|exact X|exact Y|].
  { intros x1 y1 X1 Y1. rewrite <- (pixel_kind g a) by exact IA. apply CA; [exact N|split; assumption]. }
  rewrite EQ, (item_eq g a g' b HG K (prim_names a b p P PR)). rewrite Z.mod_small by (apply (sample_range g a); try assumption; rewrite MA; exact N).
  rewrite <- (pixel_kind g a) by exact IA. rewrite CA by (try assumption; split; assumption). rewrite R3, R4. reflexivity.
Qed.

(** The sample that covers another is in the picture. *)
Lemma covered f0 k b w h n x y : In (f0, k) pictured -> finer b k -> 0 < k_hs b -> 0 < k_vs b -> w mod 2 = 0 -> h mod 2 = 0 -> 0 <= x < comp_w b n w -> 0 <= y < comp_h b n h ->
  0 <= across k b n x < comp_w k n w /\ 0 <= down k b n y < comp_h k n h.
Proof.
  intros I (_ & _ & HB & VB) PH PV W H X Y. pose proof (pictured_subs f0 k I) as SK. assert (KH : k_hs k = 1 \/ k_hs k = 2) by (clear - SK; lia). assert (KV : k_vs k = 1 \/ k_vs k = 2) by (clear - SK; lia). clear SK I.
  assert (L : forall b k z w, (k = 1 \/ k = 2) -> 0 < b <= k -> w mod 2 = 0 -> 0 <= z < w / b -> 0 <= z * b / k < w / k).
  { clear. intros b k z w K B E Z. destruct K as [-> | ->]; [assert (b = 1) by lia; subst b; lia|]. assert (b = 1 \/ b = 2) as [-> | ->] by lia; lia. }
  destruct n; cbn [comp_w comp_h across down] in *; auto.
Qed.
Lemma carried_modest f0 k g0 b g : In (f0, k) pictured -> finer b k -> 0 < k_hs b -> 0 < k_vs b -> g_w g mod 2 = 0 -> g_h g mod 2 = 0 -> carried k g0 b g -> modest g0 k -> modest g b.
Proof.
  intros I FI PH PV W H [[SW SH] C] M n x y N X. pose proof FI as (MB & DB & _). rewrite MB in N. rewrite (C n x y N X), DB. apply M; [exact N|]. destruct X as [X Y]. unfold in_comp. rewrite SW, SH. exact (covered f0 k b _ _ n x y I FI PH PV W H X Y).
Qed.
Lemma only_planar f : In (f, yuv422 10) kinds -> f = S16_422_10BIT.
Proof.
  intros I. assert (C : forallb (fun e => negb (kind_eqb (snd e) (yuv422 10)) || (fst e =? S16_422_10BIT)) kinds = true) by (vm_compute; reflexivity).
  rewrite forallb_forall in C. specialize (C _ I). cbn [fst snd] in C. rewrite kind_eqb_refl in C. apply Z.eqb_eq. exact C.
Qed.
Lemma unpack_step fuel o k g0 v : v210_ok v -> k_model k = MYuv -> carried k g0 (yuv422 10) v ->
  exists g, convert (S fuel) conversions o v S16_422_10BIT = Ok g /\ g_fmt g = S16_422_10BIT /\ has_kind g (yuv422 10) /\ same_size v g /\ carried k g0 (yuv422 10) g.
Proof.
  intros V MK [[SW SH] C]. destruct (unpack fuel o v V) as (g & E & K & [W H] & S). exists g. split; [exact E|].
  assert (F : g_fmt g = S16_422_10BIT).
  { exact (only_planar _ (proj1 K)). }
  split; [exact F|]. split; [exact K|]. split; [split; assumption|]. split; [split; congruence|].
  intros n x y N X. rewrite (pixel_kind g (yuv422 10)) by exact (proj1 K). rewrite MK in N. rewrite (S n x y N X). rewrite <- (pixel_v210 v) by exact (proj1 V). apply C; [rewrite MK; exact N|]. unfold in_comp in *. rewrite W, H. exact X.
Qed.
Lemma pack_step fuel o f0 k g0 g : In (f0, k) pictured -> finer (yuv422 10) k -> has_kind g (yuv422 10) -> g_w g mod 2 = 0 -> g_h g mod 2 = 0 -> modest g0 k -> carried k g0 (yuv422 10) g ->
  exists v, convert (S fuel) conversions o g v210 = Ok v /\ v210_ok v /\ v210_clean v /\ same_size g v /\ carried k g0 (yuv422 10) v.
Proof.
  intros I FI HG EW EH M CA. pose proof FI as (MK & _). cbn [k_model yuv422] in MK. assert (BL : below g (yuv422 10)).
  { intros n x y N X. rewrite <- (pixel_kind g (yuv422 10)) by exact (proj1 HG). exact (carried_modest f0 k g0 (yuv422 10) g I FI eq_refl eq_refl EW EH CA M n x y N X). }
  destruct (pack fuel o g HG BL) as (v & E & V & CL & [W H] & S). exists v. split; [exact E|]. split; [exact V|]. split; [exact CL|]. split; [split; assumption|]. destruct CA as [[SW SH] C]. split; [split; congruence|].
  intros n x y N X. rewrite (pixel_v210 v) by exact (proj1 V). assert (X' : in_comp (yuv422 10) g n x y) by (unfold in_comp in *; rewrite W, H; exact X).
  rewrite <- MK in N. rewrite (S n x y N X'). rewrite <- (pixel_kind g (yuv422 10)) by exact (proj1 HG). apply C; [rewrite <- MK; exact N|exact X'].
Qed.

(** Any conversion to a format that is fine enough. *)
Definition pictures_a (g : ngrain) (a : kind) : Prop := In (g_fmt g, a) pictured /\ np_ok g.
Lemma pictures_kind g a : pictures_a g a -> g_fmt g <> v210 -> has_kind g a.
Proof. intros [I O] N. apply pictured_kind in I as [I|[E _]]; [split; assumption|contradiction]. Qed.
Lemma pictures_v210 g a : pictures_a g a -> g_fmt g = v210 -> v210_ok g /\ a = yuv422 10.
Proof. intros [I O] E. split; [split; assumption|]. apply pictured_kind in I as [I|[_ ->]]; [|reflexivity]. destruct (not_v210 _ _ I E). Qed.
Lemma kind_pictures g a : has_kind g a -> pictures_a g a.
Proof. intros [I O]. split; [apply in_or_app; left; exact I|exact O]. Qed.
Lemma v210_pictures g : v210_ok g -> pictures_a g (yuv422 10).
Proof. intros [E O]. split; [rewrite E; apply in_or_app; right; left; reflexivity|exact O]. Qed.

Lemma step fuel o f0 k g0 g a f b : (3 <= fuel)%nat -> In (f0, k) pictured -> pictures_a g a -> In (f, b) pictured -> g_fmt g <> f -> finer a k -> finer b k -> g_w g mod 2 = 0 -> g_h g mod 2 = 0 ->
  (f = v210 -> modest g0 k) -> carried k g0 a g ->
  exists g', convert fuel conversions o g f = Ok g' /\ g_fmt g' = f /\ pictures_a g' b /\ (f = v210 -> v210_clean g') /\ same_size g g' /\ carried k g0 b g'.
Proof.
  intros FU I0 PA IB NE FA FB EW EH MO CA. pose proof PA as [IA _]. destruct FA as (MA & DA & QA). destruct FB as (MB & DB & QB). assert (FA : finer a k) by (split; auto). assert (FB : finer b k) by (split; auto).
  assert (WY : way conversions (g_fmt g) a f b).
  { apply route_way; [|congruence|congruence|exact NE]. pose proof routes as R. rewrite forallb_forall in R. specialize (R _ IA). cbv beta in R. rewrite forallb_forall in R. exact (R _ IB). }
  destruct fuel as [|[|[|fuel]]]; [clear - FU; lia|clear - FU; lia|clear - FU; lia|].
  destruct WY as [N1 N2 (q & P & PR)|E1 E2|E1 E2|m TH MI N1 N2 N3 N4 (q1 & P1 & PR1) (q2 & P2 & PR2) HS MY|TH N1 N2 E1 N3 (q & P & PR)|TH N1 N2 N3 E1 (q & P & PR)].
  - apply pictured_kind in IB as [IB|[E _]]; [|destruct (N2 E)].
    destruct (direct (S (S fuel)) o f0 k g0 g a f b q I0 (pictures_kind g a PA N1) IB NE P PR FA FB EW EH CA) as (g' & E & F & K & S & C).
    exists g'. split; [exact E|]. split; [exact F|]. split; [exact (kind_pictures _ _ K)|]. split; [intros X; destruct (N2 X)|]. split; assumption.
  - subst f. destruct (pictures_v210 g a PA E1) as [V ->]. pose proof (pictured_kind _ _ IB) as [IB'|[IB' _]]; [|discriminate IB'].
    assert (b = yuv422 10) as -> by (apply (kind_unique S16_422_10BIT); [exact IB'|cbn [kinds In]; tauto]).
    destruct (unpack_step (S (S fuel)) o k g0 g V (eq_sym MA) CA) as (g' & E & F & K & S & C). exists g'. split; [exact E|]. split; [exact F|]. split; [exact (kind_pictures _ _ K)|]. split; [intros Q; discriminate Q|]. split; assumption.
  - subst f. assert (HG : has_kind g a) by (apply (pictures_kind g a PA); rewrite E2; discriminate).
    assert (a = yuv422 10) as -> by (apply (kind_unique S16_422_10BIT); [rewrite <- E2; exact (proj1 HG)|cbn [kinds In]; tauto]).
    apply pictured_kind in IB as [IB|[_ ->]]; [destruct (not_v210 _ _ IB eq_refl)|].
    destruct (pack_step (S (S fuel)) o f0 k g0 g I0 FA HG EW EH (MO eq_refl) CA) as (v & E & V & CL & S & C). exists v. split; [exact E|]. split; [exact (proj1 V)|]. split; [exact (v210_pictures _ V)|]. split; [intros _; exact CL|]. split; assumption.
  - apply pictured_kind in IB as [IB|[E _]]; [|destruct (N4 E)].
    assert (FM : finer (yuv422 (k_depth a)) k).
    { split; [cbn [k_model yuv422]; congruence|]. split; [exact DA|]. cbn [k_hs k_vs yuv422]. pose proof (pictured_subs f0 k I0) as SK. clear - SK QA QB HS. lia. }
    destruct (direct (S fuel) o f0 k g0 g a m (yuv422 (k_depth a)) q1 I0 (pictures_kind g a PA N3) MI N1 P1 PR1 FA FM EW EH CA) as (g1 & E1 & F1 & K1 & S1 & C1). pose proof S1 as [SW SH].
    destruct (direct (S fuel) o f0 k g0 g1 (yuv422 (k_depth a)) f b q2 I0 K1 IB ltac:(rewrite F1; exact N2) P2 PR2 FM FB ltac:(rewrite <- SW; exact EW) ltac:(rewrite <- SH; exact EH) C1) as (g' & E & F & K & [SW2 SH2] & C).
    exists g'. split; [exact (via conversions _ o g f m g1 g' NE N1 N2 TH E1 F1 S1 E)|].
    split; [exact F|]. split; [exact (kind_pictures _ _ K)|]. split; [intros X; destruct (N4 X)|]. split; [split; [exact (eq_trans SW SW2)|exact (eq_trans SH SH2)]|exact C].
  - destruct (pictures_v210 g a PA E1) as [V ->]. apply pictured_kind in IB as [IB|[E _]]; [|destruct (N3 E)].
    destruct (unpack_step (S fuel) o k g0 g V (eq_sym MA) CA) as (g1 & E2 & F1 & K1 & S1 & C1). pose proof S1 as [SW SH].
    destruct (direct (S fuel) o f0 k g0 g1 (yuv422 10) f b q I0 K1 IB ltac:(rewrite F1; exact N2) P PR FA FB ltac:(rewrite <- SW; exact EW) ltac:(rewrite <- SH; exact EH) C1) as (g' & E & F & K & [SW2 SH2] & C).
    exists g'. split; [exact (via conversions _ o g f S16_422_10BIT g1 g' NE N1 N2 TH E2 F1 S1 E)|].
    split; [exact F|]. split; [exact (kind_pictures _ _ K)|]. split; [intros X; destruct (N3 X)|]. split; [split; [exact (eq_trans SW SW2)|exact (eq_trans SH SH2)]|exact C].
  - subst f. apply pictured_kind in IB as [IB|[_ ->]]; [destruct (not_v210 _ _ IB eq_refl)|].
    assert (MI : In (S16_422_10BIT, yuv422 10) kinds) by (cbn [kinds In]; tauto).
    destruct (direct (S fuel) o f0 k g0 g a S16_422_10BIT (yuv422 10) q I0 (pictures_kind g a PA N3) MI N1 P PR FA FB EW EH CA) as (g1 & E1 & F1 & K1 & S1 & C1). pose proof S1 as [SW SH].
    destruct (pack_step (S fuel) o f0 k g0 g1 I0 FB K1 ltac:(rewrite <- SW; exact EW) ltac:(rewrite <- SH; exact EH) (MO eq_refl) C1) as (v & E & V & CL & [SW2 SH2] & C).
    exists v. split; [exact (via conversions _ o g v210 S16_422_10BIT g1 v NE N1 N2 TH E1 F1 S1 E)|].
    split; [exact (proj1 V)|]. split; [exact (v210_pictures _ V)|]. split; [intros _; exact CL|]. split; [split; [exact (eq_trans SW SW2)|exact (eq_trans SH SH2)]|exact C].
Qed.
