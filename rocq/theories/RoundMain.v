(** Conversions to finer formats, one after the other. *)
From Coq Require Import String Lia ZifyBool ZifyNat.
From Verif Require Import Base BaseProofs GsfPrim GsfPrimProofs CogEnums VideoLayout LayoutSpec LayoutProofs PatternSpec JsonProofs PyValue GrainObj BuildSpec BuildMain BuildKw GrainCopy GrainCopySpec GrainCopyMade GrainGsf
  NpView NpSpec NpViewProofs NpGrainProofs NpPacked NpConvert NpConvSpec NpConvProofs V210Proofs NpTable NpTheorems NpDepth NpAudio NpAudioSpec Psnr PsnrSpec PsnrProofs PsnrMain PsnrMade NpObject NpObjectSpec NpObjectProofs NpObjectMain NpObjectMore
  RoundSpec RoundProofs.
Local Open Scope list_scope.
Ltac Zify.zify_post_hook ::= Z.div_mod_to_equations.

(** The same items, the same picture. *)
Lemma word_bound n x w : In n [CY; CU; CV] -> 0 <= x < comp_w (yuv422 10) n w -> 0 <= fst (v210_place n x) < line_words w.
Proof.
  intros N X. assert (Q : forall r, 0 <= fst (nth (Z.to_nat r) [(0, 1); (1, 0); (1, 2); (2, 1); (3, 0); (3, 2)] (0, 0)) <= 3 /\ 0 <= fst (nth (Z.to_nat r) [(0, 0); (1, 1); (2, 2)] (0, 0)) <= 3 /\
    0 <= fst (nth (Z.to_nat r) [(0, 2); (2, 0); (3, 1)] (0, 0)) <= 3).
  { intros r. clear. destruct (Z.to_nat r) as [|[|[|[|[|[|i]]]]]]; cbn [nth fst]; try lia; destruct i; cbn [nth fst]; lia. }
  assert (C6 := Q (x mod 6)). assert (C3 := Q (x mod 3)). clear Q. cbn [In] in N. unfold line_words. replace (128 * ((w + 47) / 48) / 4) with (32 * ((w + 47) / 48)) by lia.
  destruct N as [<-|[<-|[<-|[]]]]; unfold v210_place; cbn [comp_w fst] in *; change (k_hs (yuv422 10)) with 2 in *.
  - destruct C6 as (C & _). set (c := fst _) in *. clearbody c. lia.
  - destruct C3 as (_ & C & _). set (c := fst _) in *. clearbody c. lia.
  - destruct C3 as (_ & _ & C). set (c := fst _) in *. clearbody c. lia.
Qed.
Lemma in_words g y j : v210_ok g -> 0 <= y < g_h g -> 0 <= j < line_words (g_w g) -> 0 <= y * line_words (g_w g) + j < g_len g.
Proof. intros V Y J. destruct (v210_shape g V) as (_ & _ & _ & L & _). rewrite words_eq in *. rewrite L. nia. Qed.
Lemma same_pixels g g' a : pictures_a g a -> same_shape g g' -> (forall i, 0 <= i < g_len g -> g_data g' i = g_data g i) ->
  forall n x y, In n (names (k_model a)) -> in_comp a g n x y -> pixel g' n x y = pixel g n x y.
Proof.
  intros P S D n x y N X. pose proof S as (SF & SW & SH & _). unfold pixel. rewrite SF. destruct (Z.eqb_spec (g_fmt g) v210) as [E|E].
  - destruct (pictures_v210 g a P E) as [V ->]. unfold v210_sample. destruct X as [X Y]. change (names (k_model (yuv422 10))) with [CY; CU; CV] in N. pose proof (word_bound n x (g_w g) N X) as B.
    destruct (v210_place n x) as [j f] eqn:PL. cbn [fst] in B. rewrite SW, D; [reflexivity|]. apply in_words; [exact V| |exact B]. destruct (comp10 n (g_w g) (g_h g) N) as [_ C]. change k10 with (yuv422 10) in C. rewrite <- C. exact Y.
  - exact (shown_alike a g g' (pictures_kind g a P E) S D n x y N X).
Qed.
Lemma same_clean g g' : v210_ok g -> same_shape g g' -> (forall i, 0 <= i < g_len g -> g_data g' i = g_data g i) -> v210_clean g -> v210_clean g'.
Proof.
  intros V (SF & SW & SH & _) D C j y J Y. rewrite SW in *. rewrite SH in Y. rewrite (D _ (in_words g y j V Y J)). exact (C j y J Y).
Qed.
Lemma shown_pictures f a w h d : In (f, a) pictured -> 0 <= w -> 0 <= h -> zlen d = size_for_format f w h -> bytes_ok d -> pictures_a (shown f w h d) a.
Proof.
  intros I W H L B. assert (IF : In f formats) by (apply in_app_or in I as [I|[I|[]]]; unfold formats; apply in_or_app; [left; exact (in_map fst _ (f, a) I)|right; left; injection I as <- _; reflexivity]).
  split; [exact I|]. exact (proj1 (shown_ok f w h d IF W H L B)).
Qed.
Lemma pictured_format f a : In (f, a) pictured -> In f formats.
Proof. intros I. apply in_app_or in I as [I|[I|[]]]; unfold formats; apply in_or_app; [left; exact (in_map fst _ (f, a) I)|right; left; injection I as <- _; reflexivity]. Qed.

Theorem carry u5 now fuel noise src origin sync rate duration layout w h f0 k d0 : (4 <= fuel)%nat -> 0 <= w -> 0 <= h -> w mod 2 = 0 -> h mod 2 = 0 -> In (f0, k) pictured -> forall fmts o f a d flow,
  video_of o f w h d -> bytes_ok d -> labelled o src flow origin sync rate duration layout -> In (f, a) pictured -> finer a k -> carried k (shown f0 w h d0) a (shown f w h d) ->
  Forall (fine k) fmts -> (In v210 fmts -> modest (shown f0 w h d0) k) ->
  exists o' d' b, np_converts u5 now fuel noise o fmts = Ok o' /\ video_of o' (last_of f fmts) w h d' /\ bytes_ok d' /\ labelled o' src (flow_after u5 f flow fmts) origin sync rate duration layout /\
    In (last_of f fmts, b) pictured /\ finer b k /\ carried k (shown f0 w h d0) b (shown (last_of f fmts) w h d') /\
    ((f = v210 -> v210_clean (shown f w h d)) -> last_of f fmts = v210 -> v210_clean (shown (last_of f fmts) w h d')) /\
    (labels o = Ok [] -> labels o' = Ok []) /\ (getattr o' $"creation_timestamp" = getattr o $"creation_timestamp" \/ getattr o' $"creation_timestamp" = Ok (PTime now)).
Proof.
  intros FU W H EW EH I0. induction fmts as [|f1 fmts IH]; intros o f a d flow V B LB I FA CA FM MO.
  - exists o, d, a. split; [reflexivity|]. cbn [last_of fold_left flow_after]. auto 12.
  - apply Forall_cons_iff in FM as [(b1 & I1 & FB) FM]. cbn [np_converts flow_after]. change (last_of f (f1 :: fmts)) with (last_of f1 fmts).
    assert (MO' : In v210 fmts -> modest (shown f0 w h d0) k) by (intros Q; apply MO; right; exact Q).
    destruct (Z.eq_dec f1 f) as [-> |NE].
    + assert (C : np_convert u5 now fuel noise o f = Ok (mkO KVideo (o_meta o) (Some d) None)).
      { unfold np_convert. unfold attr at 1. rewrite (vo_format _ _ _ _ _ V). cbn [rbind to_int]. rewrite Z.eqb_refl. exact (again now o f w h d V (pictured_format _ _ I) W H). }
      rewrite C. cbn [rbind]. rewrite Z.eqb_refl. destruct (IH _ f a d flow (same_meta _ _ _ _ _ V) B (same_labels _ _ _ _ _ _ _ _ _ (vo_class _ _ _ _ _ V) LB) I FA CA FM MO') as (o' & d' & b & R1 & R2 & R3 & R4 & R5 & R6 & R7 & R8 & R9 & R10).
      exists o', d', b. do 8 (split; [assumption|]). split; [exact R9|]. pose proof (vo_class _ _ _ _ _ V) as CL. destruct o as [c m x z]. cbn [o_class o_meta] in *. subst c. exact R10.
    + destruct (converted u5 now fuel noise o f f1 w h d src flow origin sync rate duration layout V B LB FU (pictured_format _ _ I) (pictured_format _ _ I1) NE W H EW EH) as (o1 & d1 & g1 & C & V1 & B1 & L1 & CT & LT & E & _ & SH & D).
      rewrite C. cbn [rbind]. replace (f1 =? f) with false by lia.
      destruct (step fuel noise f0 k (shown f0 w h d0) (shown f w h d) a f1 b1 ltac:(lia) I0 (shown_pictures f a w h d I W H (vo_length _ _ _ _ _ V) B) I1 (fun Q => NE (eq_sym Q)) FA FB EW EH (fun Q => MO (or_introl Q)) CA)
        as (g' & E' & F' & P' & CL & SZ & CA'). rewrite E in E'. apply Ok_eq in E'. subst g'.
      assert (CA1 : carried k (shown f0 w h d0) b1 (shown f1 w h d1)).
      { destruct CA' as [[SW SHH] CA']. pose proof SH as (_ & SW1 & SH1 & _). split; [split; congruence|]. intros n x y N X.
        assert (X' : in_comp b1 g1 n x y) by (unfold in_comp in *; rewrite <- SW1, <- SH1; exact X).
        rewrite <- (CA' n x y N X'). apply (same_pixels g1 _ b1 P' SH D); [destruct FB as (-> & _); exact N|exact X']. }
      destruct (IH o1 f1 b1 d1 (u5 flow f1) V1 B1 L1 I1 FB CA1 FM MO') as (o' & d' & b & R1 & R2 & R3 & R4 & R5 & R6 & R7 & R8 & R9 & R10).
      exists o', d', b. split; [exact R1|]. split; [exact R2|]. split; [exact R3|]. split; [exact R4|]. split; [exact R5|]. split; [exact R6|]. split; [exact R7|].
      split; [|split; [intros _; exact (R9 LT)|right; destruct R10 as [R10|R10]; congruence]].
      intros _. apply R8. intros Q. specialize (CL Q). apply (same_clean g1); [|exact SH|exact D|exact CL]. rewrite Q in F'. exact (proj1 (pictures_v210 g1 b1 P' F')).
Qed.

(** A grain is carried by itself, and a picture of the same kind is the same. *)
Lemma across_self k n x : 0 < k_hs k -> across k k n x = x.
Proof. intros P. unfold across. destruct n; try reflexivity; apply Z.div_mul; lia. Qed.
Lemma down_self k n y : 0 < k_vs k -> down k k n y = y.
Proof. intros P. unfold down. destruct n; try reflexivity; apply Z.div_mul; lia. Qed.
Lemma carried_self f k g : In (f, k) pictured -> carried k g k g.
Proof.
  intros I. pose proof (pictured_subs f k I) as S. split; [split; reflexivity|]. intros n x y _ _. rewrite across_self, down_self by (clear - S; lia). reflexivity.
Qed.
Lemma carried_back f k g g' : In (f, k) pictured -> carried k g k g' -> forall n x y, In n (names (k_model k)) -> in_comp k g n x y -> pixel g' n x y = pixel g n x y.
Proof.
  intros I [[SW SH] C] n x y N X. pose proof (pictured_subs f k I) as S. rewrite (C n x y N) by (unfold in_comp in *; rewrite <- SW, <- SH; exact X). rewrite across_self, down_self by (clear - S; lia). reflexivity.
Qed.

(** Every item belongs to a sample. *)
Definition padded : list Z := [RGBx; xRGB; BGRx; xBGR].
Lemma item_some pixels slots w p : 0 < w -> 0 <= p -> Forall (fun s : option (cname * Z) => s <> None) slots ->
  (pixels = 1 /\ 0 < zlen slots /\ Forall (fun s => match s with Some (n, _) => In n [CR; CG; CB] | None => True end) slots) \/ (pixels = 2 /\ zlen slots = 4 /\ w mod 2 = 0 /\ Forall (fun s => match s with Some (n, _) => In n [CY; CU; CV] | None => True end) slots) ->
  exists n x y, item_at (pixels, slots) w p = Some (n, x, y) /\ In n (if pixels =? 1 then [CR; CG; CB] else [CY; CU; CV]).
Proof.
  intros W P F C. unfold item_at. set (line := w * zlen slots / pixels). assert (LP : 0 < zlen slots) by (destruct C as [(_ & Q & _)|(_ & -> & _)]; lia).
  set (k := p mod line). assert (KB : 0 <= k mod zlen slots < zlen slots) by (apply Z.mod_pos_bound; exact LP).
  destruct (nth_error slots (Z.to_nat (k mod zlen slots))) as [s|] eqn:NE; [|apply nth_error_None in NE; unfold zlen in *; lia].
  apply nth_error_In in NE. rewrite Forall_forall in F. pose proof (F s NE) as FS. destruct s as [[n j]|]; [|destruct (FS eq_refl)].
  destruct C as [(-> & _ & C)|(-> & L4 & EW & C)]; rewrite Forall_forall in C; specialize (C _ NE); cbn beta iota in C.
  - cbn [Z.eqb Pos.eqb]. destruct n; try (destruct C as [C|[C|[C|[]]]]; discriminate C); do 3 eexists; (split; [reflexivity|exact C]).
  - cbn [Z.eqb Pos.eqb]. assert (KL : 0 <= k < 2 * w) by (unfold k, line; rewrite L4; replace (w * 4 / 2) with (2 * w) by lia; apply Z.mod_pos_bound; lia).
    assert (X : k / zlen slots <? w / 2 = true) by (rewrite L4; clear - KL EW; lia).
    destruct n; try (destruct C as [C|[C|[C|[]]]]; discriminate C); rewrite ?X; do 3 eexists; (split; [reflexivity|exact C]).
Qed.
Definition covers (e : Z * kind) : bool :=
  let '(f, k) := e in member padded f ||
  existsb (fun p => (fst p =? f) && match snd p with Planar hs vs b => (hs =? k_hs k) && (vs =? k_vs k) | _ => false end &&
     match k_model k with MYuv => match arrangement_of f with OYUV => true | _ => false end | MRgb => match arrangement_of f with ORGB => true | _ => false end end) pictures ||
  existsb (fun p => (fst p =? f) && let '(pixels, slots) := snd p in forallb (fun s => match s with Some _ => true | None => false end) slots &&
     match k_model k with
     | MRgb => (pixels =? 1) && (0 <? zlen slots) && forallb (fun s => match s with Some (CR, _) | Some (CG, _) | Some (CB, _) => true | _ => false end) slots
     | MYuv => (pixels =? 2) && (zlen slots =? 4) && forallb (fun s => match s with Some (CY, _) | Some (CU, _) | Some (CV, _) => true | _ => false end) slots
     end) groups.
Lemma all_cover : forallb covers kinds = true.
Proof. vm_compute. reflexivity. Qed.
Lemma plane_split w h i : 0 < w -> 0 <= i < w * h -> exists x y, 0 <= x < w /\ 0 <= y < h /\ i = y * w + x.
Proof.
  intros W I. exists (i mod w), (i / w). assert (0 <= i mod w < w) by (apply Z.mod_pos_bound; lia). assert (E := Z.div_mod i w ltac:(lia)). assert (0 <= i / w) by (apply Z.div_pos; lia).
  assert (i / w < h) by (apply Z.div_lt_upper_bound; lia). split; [assumption|]. split; [lia|lia].
Qed.
Lemma whole g k : has_kind g k -> 0 < g_w g -> 0 < g_h g -> g_w g mod 2 = 0 -> g_h g mod 2 = 0 -> ~ In (g_fmt g) padded -> forall i, 0 <= i < g_len g ->
  exists n x y v, In n (names (k_model k)) /\ in_comp k g n x y /\ ng_comp g n = Ok v /\ v_addr v x y = i.
Proof.
  intros HK PW PH EW EH NP i R. pose proof HK as [I (W & H & (g0 & G0 & GI & GL) & _)]. pose proof all_cover as C. rewrite forallb_forall in C. specialize (C _ I). unfold covers in C.
  assert (SZ : forall n v, In n (names (k_model k)) -> ng_comp g n = Ok v -> v_w v = comp_w k n (g_w g) /\ v_h v = comp_h k n (g_h g)).
  { intros n v N E. destruct (comp_view g k n HK N) as (l & j & v' & _ & _ & _ & _ & E' & A1 & A2). rewrite E in E'. apply Ok_eq in E'. subst v'. split; assumption. }
  apply orb_prop in C as [C|C]; [apply orb_prop in C as [C|C]|].
  - destruct NP. unfold member in C. apply existsb_exists in C as (z & Z1 & Z2). apply Z.eqb_eq in Z2. rewrite Z2. exact Z1.
  - apply existsb_exists in C as ([f pic] & IP & C). cbn [fst snd] in C. apply andb_prop in C as [C AR]. apply andb_prop in C as [C Q]. apply Z.eqb_eq in C. subst f. destruct pic as [hs vs b| | ]; try discriminate Q.
    apply andb_prop in Q as [Q1 Q2]. apply Z.eqb_eq in Q1, Q2. subst hs vs. destruct (planar_layout (g_fmt g) _ _ b (g_w g) (g_h g) IP W H) as (g0' & G0' & I0 & L0 & _). rewrite G0 in G0'. apply Ok_eq in G0'. subst g0'.
    assert (VW : ng_views g = Ok (planar_views (k_hs k) (k_vs k) (g_w g) (g_h g))) by (unfold ng_views; rewrite GI, I0; apply views_planar; assumption).
    destruct (pictures_planar _ _ _ _ IP) as (_ & _ & HS & VS & PB).
    assert (LEN : g_len g = g_w g * g_h g + (g_w g / k_hs k) * (g_h g / k_vs k) + (g_w g / k_hs k) * (g_h g / k_vs k)).
    { rewrite GL. destruct (planar_shape (g_fmt g) _ _ b (g_w g) (g_h g) IP W H) as (o1 & o2 & o3 & E). pose proof (components_tile (g_fmt g) (g_w g) (g_h g) W H) as Ht. rewrite E in Ht. cbn [tiles vc_offset vc_length] in Ht. destruct Ht as (_ & _ & _ & _ & _ & _ & Sz).
      assert (Q : g_w g * g_h g / (k_hs k * k_vs k) = (g_w g / k_hs k) * (g_h g / k_vs k)).
      { destruct HS as [-> | ->], VS as [-> | ->]; rewrite ?Z.div_1_r; cbn [Z.mul Pos.mul]; rewrite ?Z.div_1_r; try reflexivity.
        - rewrite Z.divide_div_mul_exact; [reflexivity|lia|]. exists (g_h g / 2). lia.
        - rewrite (Z.mul_comm (g_w g)), Z.divide_div_mul_exact; [apply Z.mul_comm|lia|]. exists (g_w g / 2). lia.
        - assert (X : g_w g * g_h g = (g_w g / 2 * (g_h g / 2)) * 4) by (assert (E1 : g_w g = 2 * (g_w g / 2)) by lia; assert (E2 : g_h g = 2 * (g_h g / 2)) by lia; rewrite E1 at 1; rewrite E2 at 1; ring). rewrite X. apply Z.div_mul. lia. }
      rewrite Q in Sz. rewrite <- L0 in Sz. set (c := g_w g / k_hs k * (g_h g / k_vs k)) in *. set (s := g_w g * g_h g) in *. clearbody c s. clear - Sz PB. nia. }
    assert (AT : forall j n, nth_error (names (k_model k)) j = Some n -> (j < 3)%nat -> exists v, nth_error (planar_views (k_hs k) (k_vs k) (g_w g) (g_h g)) j = Some v /\ ng_comp g n = Ok v).
    { intros j n N J. destruct (nth_error (planar_views (k_hs k) (k_vs k) (g_w g) (g_h g)) j) as [v|] eqn:E; [|apply nth_error_None in E; cbn [planar_views List.length] in E; lia].
      exists v. split; [reflexivity|]. apply (comp_of g _ n v VW). exists j. split; [|exact E]. destruct (k_model k); destruct (arrangement_of (g_fmt g)); try discriminate AR; destruct j as [|[|[|j]]]; cbn [names nth_error] in N; try lia; injection N as <-; reflexivity. }
    assert (HP : 0 < g_w g / k_hs k) by (destruct HS as [-> | ->]; lia).
    assert (PUT : forall j n x y, nth_error (names (k_model k)) j = Some n -> (j < 3)%nat -> (forall v, nth_error (planar_views (k_hs k) (k_vs k) (g_w g) (g_h g)) j = Some v -> 0 <= x < v_w v /\ 0 <= y < v_h v /\ v_addr v x y = i) ->
      exists n x y v, In n (names (k_model k)) /\ in_comp k g n x y /\ ng_comp g n = Ok v /\ v_addr v x y = i).
    { intros j n x y N J A. destruct (AT j n N J) as (v & E & CO). destruct (A v E) as (X & Y & AD). exists n, x, y, v. pose proof (nth_error_In _ _ N) as IN. destruct (SZ n v IN CO) as [S1 S2]. unfold in_comp. rewrite <- S1, <- S2. auto. }
    destruct (Z_lt_ge_dec i (g_w g * g_h g)) as [R1|R1]; [|destruct (Z_lt_ge_dec i (g_w g * g_h g + g_w g / k_hs k * (g_h g / k_vs k))) as [R2|R2]].
    + destruct (plane_split (g_w g) (g_h g) i PW (conj (proj1 R) R1)) as (x & y & X & Y & E). destruct (nth_error (names (k_model k)) 0) as [n|] eqn:N; [|destruct (k_model k); discriminate N].
      apply (PUT O n x y N ltac:(lia)). intros v [= <-]. unfold v_addr. cbn [v_w v_h v_base v_sx v_sy]. split; [exact X|]. split; [exact Y|]. lia.
    + destruct (plane_split (g_w g / k_hs k) (g_h g / k_vs k) (i - g_w g * g_h g) HP ltac:(lia)) as (x & y & X & Y & E). destruct (nth_error (names (k_model k)) 1) as [n|] eqn:N; [|destruct (k_model k); discriminate N].
      apply (PUT 1%nat n x y N ltac:(lia)). intros v [= <-]. unfold v_addr. cbn [v_w v_h v_base v_sx v_sy]. split; [exact X|]. split; [exact Y|]. clear - E. lia.
    + assert (Q : g_w g * g_h g / (k_hs k * k_vs k) = (g_w g / k_hs k) * (g_h g / k_vs k)).
      { clear - EW EH HS VS. destruct HS as [-> | ->], VS as [-> | ->]; rewrite ?Z.div_1_r; cbn [Z.mul Pos.mul]; rewrite ?Z.div_1_r; try reflexivity.
        - rewrite Z.divide_div_mul_exact; [reflexivity|lia|]. exists (g_h g / 2). lia.
        - rewrite (Z.mul_comm (g_w g)), Z.divide_div_mul_exact; [apply Z.mul_comm|lia|]. exists (g_w g / 2). lia.
        - assert (X : g_w g * g_h g = (g_w g / 2 * (g_h g / 2)) * 4) by (assert (E1 : g_w g = 2 * (g_w g / 2)) by lia; assert (E2 : g_h g = 2 * (g_h g / 2)) by lia; rewrite E1 at 1; rewrite E2 at 1; ring). rewrite X. apply Z.div_mul. lia. }
      destruct (plane_split (g_w g / k_hs k) (g_h g / k_vs k) (i - g_w g * g_h g - g_w g / k_hs k * (g_h g / k_vs k)) HP ltac:(lia)) as (x & y & X & Y & E). destruct (nth_error (names (k_model k)) 2) as [n|] eqn:N; [|destruct (k_model k); discriminate N].
      apply (PUT 2%nat n x y N ltac:(lia)). intros v [= <-]. unfold v_addr. cbn [v_w v_h v_base v_sx v_sy]. split; [exact X|]. split; [exact Y|]. rewrite Q. clear - E. lia.
  - apply existsb_exists in C as ([f [pixels slots]] & IP & C). cbn [fst snd] in C. apply andb_prop in C as [C Q]. apply Z.eqb_eq in C. subst f. apply andb_prop in Q as [AL Q].
    destruct (packed_layout (g_fmt g) (pixels, slots) (g_w g) (g_h g) IP W H) as (g0' & G0' & F0 & W0 & H0 & LO). rewrite G0 in G0'. apply Ok_eq in G0'. subst g0'.
    assert (SS : same_shape g0 g) by (repeat split; congruence). rewrite GL in R.
    assert (A1 : Forall (fun s : option (cname * Z) => s <> None) slots) by (apply Forall_forall; rewrite forallb_forall in AL; intros s IS; specialize (AL s IS); destruct s; [discriminate|discriminate AL]).
    destruct (item_some pixels slots (g_w g) i PW (proj1 R) A1) as (n & x & y & E & IN).
    { destruct (k_model k); apply andb_prop in Q as [Q Q3]; apply andb_prop in Q as [Q1 Q2]; rewrite forallb_forall in Q3; [right|left].
      - split; [lia|]. split; [lia|]. split; [exact EW|]. apply Forall_forall. intros s IS. specialize (Q3 s IS). destruct s as [[[] j]|]; try discriminate Q3; cbn [In]; tauto.
      - split; [lia|]. split; [lia|]. apply Forall_forall. intros s IS. specialize (Q3 s IS). destruct s as [[[] j]|]; try discriminate Q3; cbn [In]; tauto. }
    rewrite <- W0 in E. destruct (proj2 LO n x y i R E) as (v & CO & X & Y & AD).
    assert (N : In n (names (k_model k))) by (destruct (k_model k); apply andb_prop in Q as [Q Q3]; apply andb_prop in Q as [Q1 Q2]; apply Z.eqb_eq in Q1; subst pixels; exact IN).
    assert (CO' : ng_comp g n = Ok v) by (rewrite (same_shape_comp g0 g n SS); exact CO). destruct (SZ n v N CO') as [S1 S2]. exists n, x, y, v. unfold in_comp. rewrite <- S1, <- S2. auto.
Qed.
