(** The peak signal to noise ratio of floating point samples that may be infinite or NaN. *)
From Coq Require Import String Lia ZifyBool ZifyNat.
From Verif Require Import Base BaseProofs GsfPrim CogEnums VideoLayout LayoutSpec PatternSpec JsonProofs PyValue GrainObj BuildSpec BuildMain GrainCopy GrainCopySpec GrainGsf
  NpView NpSpec NpAudio NpAudioSpec NpAudioProofs NpAudioMain Psnr PsnrSpec PsnrProofs PsnrMain PsnrAudio.
Local Open Scope list_scope.

Definition num_of (v : fval) : num := match v with FNum z => Fin z | FInf m => Infinite m | FNan => NotANumber end.
Lemma special_num mant exp bits v : 0 < mant -> 0 < exp -> is_fval mant exp bits v -> ieee mant exp bits = num_of v.
Proof.
  intros M X. assert (PM : 0 < 2 ^ mant) by (apply Z.pow_pos_nonneg; lia). assert (PX : 0 < 2 ^ exp) by (apply Z.pow_pos_nonneg; lia).
  assert (G : forall s m, (s = 0 \/ s = 1) -> 0 <= m < 2 ^ mant -> bits = (s * 2 ^ exp + (2 ^ exp - 1)) * 2 ^ mant + m -> ieee mant exp bits = if m =? 0 then Infinite (negb (s =? 0)) else NotANumber).
  { intros s m S F B. unfold ieee.
    assert (D : bits / 2 ^ mant = s * 2 ^ exp + (2 ^ exp - 1)) by (rewrite B, Z.div_add_l, (Z.div_small m) by lia; lia).
    assert (R : bits mod 2 ^ mant = m) by (rewrite B, Z.add_comm, Z.mod_add, Z.mod_small by lia; reflexivity).
    assert (DD : bits / 2 ^ (mant + exp) = s) by (rewrite Z.pow_add_r, <- Z.div_div by lia; rewrite D, Z.div_add_l, (Z.div_small (2 ^ exp - 1)) by lia; lia).
    assert (EE : (bits / 2 ^ mant) mod 2 ^ exp = 2 ^ exp - 1) by (rewrite D, Z.add_comm, Z.mod_add, Z.mod_small by lia; reflexivity).
    rewrite DD, EE, R, Z.eqb_refl. reflexivity. }
  destruct v as [z|minus|]; cbn [is_fval num_of].
  - apply float_num; assumption.
  - intros B. rewrite (G (if minus then 1 else 0) 0); [destruct minus; reflexivity|destruct minus; auto|lia|lia].
  - intros (s & m & S & F & B). rewrite (G s m S ltac:(lia) B). destruct (m =? 0) eqn:Z0; [lia|reflexivity].
Qed.

(** ** Sums of squares. *)
Lemma nan_stays ds : fold_left add_square ds NotANumber = NotANumber.
Proof. induction ds as [|d ds IH]; [reflexivity|]. cbn [fold_left]. destruct d; exact IH. Qed.
Lemma nan_sum ds : forall t, In NotANumber ds -> fold_left add_square ds t = NotANumber.
Proof. induction ds as [|d ds IH]; intros t []; cbn [fold_left]; [subst d; destruct t; apply nan_stays|apply IH; assumption]. Qed.
Lemma inf_stays ds : ~ In NotANumber ds -> forall m, exists m', fold_left add_square ds (Infinite m) = Infinite m'.
Proof.
  induction ds as [|d ds IH]; intros N m; [exists m; reflexivity|]. cbn [fold_left]. assert (N' : ~ In NotANumber ds) by (intros I; apply N; right; exact I).
  destruct d; try apply (IH N'). destruct N. left. reflexivity.
Qed.
Lemma inf_sum ds : ~ In NotANumber ds -> forall t m, t <> NotANumber -> In (Infinite m) ds -> exists m', fold_left add_square ds t = Infinite m'.
Proof.
  induction ds as [|d ds IH]; intros N t m T []; cbn [fold_left]; assert (N' : ~ In NotANumber ds) by (intros I; apply N; right; exact I).
  - subst d. destruct t; try (apply (inf_stays ds N')). destruct T. reflexivity.
  - apply (IH N' _ m); [|assumption]. destruct t, d; try discriminate; try (destruct T; reflexivity); destruct N; left; reflexivity.
Qed.
Lemma element_nan m unit ds : In NotANumber ds -> element_psnr (Some m) unit ds = Ok PvNan.
Proof. intros I. unfold element_psnr, square_sum. destruct ds; [destruct I|]. rewrite nan_sum by exact I. reflexivity. Qed.
Lemma element_inf m unit ds x : ~ In NotANumber ds -> In (Infinite x) ds -> element_psnr (Some m) unit ds = Err EValue.
Proof. intros N I. unfold element_psnr, square_sum. destruct ds; [destruct I|]. destruct (inf_sum (n :: ds) N (Fin 0) x ltac:(discriminate) I) as (m' & ->). reflexivity. Qed.

(** ** Differences. *)
Lemma nan_difference x y : n_sub (num_of x) (num_of y) = NotANumber <-> no_difference x y.
Proof.
  unfold no_difference. split.
  - destruct x as [x|m|], y as [y|n|]; cbn [num_of n_sub]; try discriminate; auto. destruct (Bool.eqb m n) eqn:E; [|discriminate]. intros _. apply Bool.eqb_prop in E. subst n. right. right. exists m. auto.
  - intros [->|[->|(m & -> & ->)]]; [destruct (num_of y); reflexivity|destruct (num_of x); reflexivity|]. cbn [num_of n_sub]. rewrite Bool.eqb_reflx. reflexivity.
Qed.
Lemma number_difference x y : both_numbers x y \/ no_difference x y \/ exists m, n_sub (num_of x) (num_of y) = Infinite m.
Proof.
  destruct (n_sub (num_of x) (num_of y)) as [d|m|] eqn:E; [left|right; right; exists m; reflexivity|right; left; apply nan_difference, E].
  destruct x as [x|m|], y as [y|n|]; cbn [num_of n_sub] in E; try discriminate E; [exists x, y; auto|]. destruct (Bool.eqb m n); discriminate E.
Qed.
Lemma no_inf x y m : both_numbers x y -> n_sub (num_of x) (num_of y) <> Infinite m.
Proof. intros (z & z' & -> & ->). discriminate. Qed.
Lemma map_res_error {A B} (f : A -> res B) l e : (forall x, In x l -> (exists v, f x = Ok v) \/ f x = Err e) -> (exists x, In x l /\ f x = Err e) -> map_res f l = Err e.
Proof.
  induction l as [|x l IH]; intros H (y & I & E); [destruct I|]. cbn [map_res]. destruct (H x (or_introl eq_refl)) as [(v & V)|V]; rewrite V; cbn [rbind]; [|reflexivity].
  destruct I as [->|I]; [congruence|]. rewrite IH; [reflexivity|intros z Z; apply H; right; exact Z|exists y; auto].
Qed.

Lemma channel_special a item g g' m (u v : Z -> Z -> fval) : laid_out a item g -> laid_out a item g' -> na_channels g' = na_channels g -> na_samples g' = na_samples g ->
  0 < audio_unit (na_fmt g) -> m <> 0 ->
  (forall ch i, 0 <= ch < na_channels g -> 0 <= i < na_samples g -> num_at a item g ch i = num_of (u ch i) /\ num_at a item g' ch i = num_of (v ch i)) ->
  exists F, map_res (channel_psnr (Some m) g g') (combine (na_views g) (na_views g')) = map_res F (between 0 (na_channels g)) /\ forall ch, 0 <= ch < na_channels g ->
    ((exists i, 0 <= i < na_samples g /\ no_difference (u ch i) (v ch i)) -> F ch = Ok PvNan) /\
    ((forall i, 0 <= i < na_samples g -> ~ no_difference (u ch i) (v ch i)) -> (exists i, 0 <= i < na_samples g /\ ~ both_numbers (u ch i) (v ch i)) -> F ch = Err EValue) /\
    (forall x y, (forall i, 0 <= i < na_samples g -> u ch i = FNum (x i) /\ v ch i = FNum (y i)) ->
      exists r, F ch = Ok r /\ is_psnr (m * audio_unit (na_fmt g)) (na_samples g) (sum (na_samples g) (fun i => (x i - y i) * (x i - y i))) r).
Proof.
  intros LO LO' C S U M N. destruct (arrays_of a item g LO) as (F & VF & AF). destruct (arrays_of a item g' LO') as (G & VG & AG). rewrite C in VG. rewrite VF, VG, combine_map, map_res_map.
  exists (fun ch => channel_psnr (Some m) g g' (F ch, G ch)). split; [reflexivity|]. intros ch I.
  assert (E : channel_psnr (Some m) g g' (F ch, G ch) = element_psnr (Some m) (audio_unit (na_fmt g)) (map (fun i => n_sub (num_of (u ch i)) (num_of (v ch i))) (between 0 (na_samples g)))).
  { unfold channel_psnr. cbn [fst snd]. rewrite (AF ch I), (AG ch ltac:(rewrite C; exact I)). cbn [rbind]. rewrite S.
    unfold pair_up. replace (zlen (map (num_at a item g ch) (between 0 (na_samples g)))) with (zlen (map (num_at a item g' ch) (between 0 (na_samples g)))) by (unfold zlen; rewrite !map_length; reflexivity).
    rewrite Z.eqb_refl. cbn [rbind]. rewrite combine_map, map_map. cbn [fst snd]. f_equal. apply map_ext_in. intros i J. apply in_between in J. destruct (N ch i I J) as [-> ->]. reflexivity. }
  rewrite E. split; [|split].
  - intros (i & J & D). apply element_nan. apply in_map_iff. exists i. split; [apply nan_difference, D|apply in_between, J].
  - intros ND (i & J & B). destruct (number_difference (u ch i) (v ch i)) as [X|[X|(x & X)]]; [destruct (B X)|destruct (ND i J X)|].
    apply (element_inf _ _ _ x); [|rewrite <- X; apply (in_map (fun i => n_sub (num_of (u ch i)) (num_of (v ch i)))), in_between, J].
    intros K. apply in_map_iff in K as (k & K & L). apply in_between in L. apply (ND k L), nan_difference, K.
  - intros x y H. replace (map (fun i => n_sub (num_of (u ch i)) (num_of (v ch i))) (between 0 (na_samples g))) with (map Fin (map (fun i => x i - y i) (between 0 (na_samples g)))).
    + destruct (element_finite m (audio_unit (na_fmt g)) (map (fun i => x i - y i) (between 0 (na_samples g))) M U) as (r & X & Q). exists r. split; [exact X|].
      rewrite sumsq_map in Q. replace (zlen (map (fun i => x i - y i) (between 0 (na_samples g)))) with (na_samples g) in Q; [exact Q|].
      unfold zlen. rewrite map_length. fold (zlen (between 0 (na_samples g))). rewrite between_len; [reflexivity|]. destruct LO as (_ & S0 & _). exact S0.
    + rewrite map_map. apply map_ext_in. intros i J. apply in_between in J. destruct (H i J) as [-> ->]. reflexivity.
Qed.

Theorem special_ratio now rwa rwb max a b f ar size mant exp s c d d' (u v : Z -> Z -> fval) : audio_of a f s c d -> audio_of b f s c d' -> In (f, (ar, size, (mant, exp))) float_table ->
  0 <= s -> 0 <= c -> max <> Some 0 ->
  (forall ch i, 0 <= ch < c -> 0 <= i < s -> is_fval mant exp (little_endian (sample_bytes size d (position ar c s ch i))) (u ch i) /\
                                             is_fval mant exp (little_endian (sample_bytes size d' (position ar c s ch i))) (v ch i)) ->
  let undefined ch := exists i, 0 <= i < s /\ no_difference (u ch i) (v ch i) in
  let endless ch := ~ undefined ch /\ exists i, 0 <= i < s /\ ~ both_numbers (u ch i) (v ch i) in
  ((exists ch, 0 <= ch < c /\ endless ch) -> compute_psnr now rwa rwb max a b = (a, b, Err EValue)) /\
  ((forall ch, 0 <= ch < c -> ~ endless ch) ->
    exists vs, compute_psnr now rwa rwb max a b = (a, b, Ok vs) /\
      Forall2 (fun ch r => (undefined ch -> r = PvNan) /\
        (forall x y, (forall i, 0 <= i < s -> u ch i = FNum (x i) /\ v ch i = FNum (y i)) ->
          is_psnr (peak_or max 1 * 2 ^ (2 ^ (exp - 1) - 2 + mant)) s (sum s (fun i => (x i - y i) * (x i - y i))) r)) (between 0 c) vs).
Proof.
  intros VA VB I S C MX N.
  assert (X : In (f, (ar, size)) plain_table /\ AUDIO_IS_COMPRESSED f = false /\ audio_max f = Some 1 /\ audio_unit f = ieee_unit mant exp /\ 0 < mant /\ 0 < exp /\ 0 < size /\ forall b, audio_num f b = ieee mant exp (le_dec b)).
  { clear - I. repeat (destruct I as [I|I]; [injection I as <- <- <- <- <-; split; [cbn [plain_table In]; intuition congruence|split; [reflexivity|split; [reflexivity|split; [reflexivity|split; [lia|split; [lia|split; [lia|reflexivity]]]]]]]|]). destruct I. }
  destruct X as (K & CM & AM & AU & PM & PX & P & AN).
  assert (Y : forall rw e, zlen e = size_for_audio_format f c s -> exists g, na_new rw f s c e = Ok g /\ na_data g = e /\ na_samples g = s /\ na_channels g = c /\ laid_out ar size g /\ na_fmt g = f /\
     forall ch i, num_at ar size g ch i = ieee mant exp (little_endian (sample_bytes size e (position ar c s ch i)))).
  { intros rw e L. rewrite (room_size f ar) with (size := size) in L by (apply in_or_app; left; exact K).
    destruct (new_plain rw f ar size s c e K S ltac:(rewrite L; apply Z.mod_mul; lia) ltac:(lia)) as (g & E & D & CP & _ & GS & GC & LO). exists g.
    assert (FM : na_fmt g = f).
    { clear - E. unfold na_new in E. destruct (audio_itemsize f); [|discriminate E]. cbn [rbind] in E. destruct (negb _); [discriminate E|]. destruct (AUDIO_IS_INT f && _).
      - destruct (AUDIO_SAMPLEBYTES f =? 3); [destruct (zlen e mod 3 =? 0); [injection E as <-; reflexivity|discriminate E]|]. destruct (negb _); [discriminate E|]. destruct (negb rw); [discriminate E|]. injection E as <-. reflexivity.
      - injection E as <-. reflexivity. }
    split; [exact E|]. split; [exact D|]. split; [exact GS|]. split; [exact GC|]. split; [exact LO|]. split; [exact FM|].
    intros ch i. unfold num_at. rewrite FM, GS, GC, AN, le_dec_little. unfold na_buffer. rewrite CP, D. reflexivity. }
  rewrite (audio_tests now rwa rwb max a b f s c d d' VA VB CM). rewrite (numpy_sound now rwa a f s c d VA), (numpy_sound now rwb b f s c d' VB).
  destruct (Y rwa d (ao_length _ _ _ _ _ VA)) as (g & E & D & GS & GC & LO & FM & NG). destruct (Y rwb d' (ao_length _ _ _ _ _ VB)) as (g' & E' & D' & GS' & GC' & LO' & FM' & NG').
  rewrite E, E'. cbv iota beta. cbn [rbind]. rewrite FM, AM, D, D', (unchanged a f s c d VA), (unchanged b f s c d' VB).
  assert (PK : peak_or max 1 <> 0) by (unfold peak_or; destruct max as [m|]; [intros ->; exact (MX eq_refl)|lia]).
  replace (match max with Some m => Some m | None => Some 1 end) with (Some (peak_or max 1)) by (unfold peak_or; destruct max; reflexivity).
  assert (PU : 0 < audio_unit (na_fmt g)).
  { rewrite FM, AU. unfold ieee_unit. apply Z.pow_pos_nonneg; [lia|]. clear - PX PM. pose proof (Z.pow_pos_nonneg 2 (exp - 1) ltac:(lia) ltac:(lia)). lia. }
  destruct (channel_special ar size g g' (peak_or max 1) u v LO LO' ltac:(congruence) ltac:(congruence) PU PK) as (F & EV & FV).
  { intros ch i CH IH. rewrite GC in CH. rewrite GS in IH. destruct (N ch i CH IH) as [U V]. rewrite NG, NG'. split; apply special_num; assumption. }
  rewrite EV, GC. rewrite FM, AU, GS, GC in FV. cbv zeta.
  assert (DEC : forall ch, (exists i, 0 <= i < s /\ no_difference (u ch i) (v ch i)) \/ (forall i, 0 <= i < s -> ~ no_difference (u ch i) (v ch i))).
  { intros ch. destruct (existsb (fun i => match n_sub (num_of (u ch i)) (num_of (v ch i)) with NotANumber => true | _ => false end) (between 0 s)) eqn:X.
    - apply existsb_exists in X as (i & J & X). apply in_between in J. left. exists i. split; [exact J|]. apply nan_difference. destruct (n_sub _ _); try discriminate X. reflexivity.
    - right. intros i J D0. apply nan_difference in D0. assert (YY : existsb (fun i => match n_sub (num_of (u ch i)) (num_of (v ch i)) with NotANumber => true | _ => false end) (between 0 s) = true); [|congruence].
      apply existsb_exists. exists i. split; [apply in_between, J|]. rewrite D0. reflexivity. }
  assert (FIN : forall ch, (exists i, 0 <= i < s /\ ~ both_numbers (u ch i) (v ch i)) \/ (forall i, 0 <= i < s -> both_numbers (u ch i) (v ch i))).
  { intros ch. set (t := fun i => match u ch i, v ch i with FNum _, FNum _ => true | _, _ => false end). destruct (forallb t (between 0 s)) eqn:X.
    - right. intros i J. rewrite forallb_forall in X. specialize (X i (proj2 (in_between 0 s i) J)). unfold t in X. destruct (u ch i) as [x| |], (v ch i) as [y| |]; try discriminate X. exists x, y. auto.
    - left. assert (YY : exists i, In i (between 0 s) /\ t i = false).
      { clear - X. induction (between 0 s) as [|i l IH]; [discriminate X|]. cbn [forallb] in X. destruct (t i) eqn:T; [|exists i; split; [left; reflexivity|exact T]]. destruct (IH X) as (j & J & E). exists j. split; [right; exact J|exact E]. }
      destruct YY as (i & J & E0). exists i. split; [apply in_between, J|]. intros (x & y & X1 & X2). unfold t in E0. rewrite X1, X2 in E0. discriminate E0. }
  split.
  - intros (ch & CH & NU & B). rewrite (map_res_error F (between 0 c) EValue); [reflexivity| |].
    + intros k K0. apply in_between in K0. destruct (FV k K0) as (F1 & F2 & F3). destruct (DEC k) as [D0|D0]; [left; exists PvNan; exact (F1 D0)|]. destruct (FIN k) as [B0|B0]; [right; exact (F2 D0 B0)|left].
      destruct (F3 (fun i => match u k i with FNum z => z | _ => 0 end) (fun i => match v k i with FNum z => z | _ => 0 end)) as (r & R & _); [|exists r; exact R].
      intros i J. destruct (B0 i J) as (x & y & -> & ->). auto.
    + exists ch. split; [apply in_between, CH|]. destruct (FV ch CH) as (_ & F2 & _). apply F2; [|exact B]. intros i J D0. apply NU. exists i. auto.
  - intros NE. destruct (map_res_forall2 F (fun ch r => ((exists i, 0 <= i < s /\ no_difference (u ch i) (v ch i)) -> r = PvNan) /\
        (forall x y, (forall i, 0 <= i < s -> u ch i = FNum (x i) /\ v ch i = FNum (y i)) ->
          is_psnr (peak_or max 1 * 2 ^ (2 ^ (exp - 1) - 2 + mant)) s (sum s (fun i => (x i - y i) * (x i - y i))) r)) (between 0 c)) as (vs & EVS & FVS); [|rewrite EVS; exists vs; split; [reflexivity|exact FVS]].
    intros ch I0. apply in_between in I0. destruct (FV ch I0) as (F1 & F2 & F3). destruct (DEC ch) as [D0|D0].
    + exists PvNan. split; [exact (F1 D0)|]. split; [reflexivity|]. intros x y H. destruct (F3 x y H) as (r & R & Q). rewrite (F1 D0) in R. apply Ok_eq in R. subst r. exact Q.
    + destruct (FIN ch) as [B0|B0].
      * destruct (NE ch I0). split; [|exact B0]. intros (i & J & X). exact (D0 i J X).
      * destruct (F3 (fun i => match u ch i with FNum z => z | _ => 0 end) (fun i => match v ch i with FNum z => z | _ => 0 end)) as (r & R & _).
        { intros i J. destruct (B0 i J) as (x & y & -> & ->). auto. }
        exists r. split; [exact R|]. split; [intros (i & J & X); destruct (D0 i J X)|]. intros x y H. destruct (F3 x y H) as (r' & R' & Q). rewrite R in R'. apply Ok_eq in R'. subst r'. exact Q.
Qed.
