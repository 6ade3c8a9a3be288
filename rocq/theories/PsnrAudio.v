(** Proofs about the peak signal to noise ratio of sound. *)
From Coq Require Import String Lia ZifyBool ZifyNat.
From Verif Require Import Base BaseProofs GsfPrim CogEnums VideoLayout LayoutSpec PatternSpec JsonProofs PyValue GrainObj BuildSpec BuildMain GrainCopy GrainCopySpec GrainGsf
  NpView NpSpec NpAudio NpAudioSpec NpAudioProofs NpAudioMain Psnr PsnrSpec PsnrProofs PsnrMain.
Local Open Scope list_scope.

(** ** The arrays. *)
Lemma list_by_index {A} (F : Z -> A) c (l : list A) : (forall ch, 0 <= ch -> nth_error l (Z.to_nat ch) = if ch <? c then Some (F ch) else None) -> l = map F (between 0 c).
Proof.
  intros H. assert (X : forall n, nth_error l n = nth_error (map F (between 0 c)) n).
  { intros n. specialize (H (Z.of_nat n) ltac:(lia)). rewrite Nat2Z.id in H. rewrite H. unfold between. rewrite !nth_error_map. rewrite Z.sub_0_r.
    destruct (Z.of_nat n <? c) eqn:E.
    - rewrite nth_error_nth' with (d := 0%nat) by (rewrite seq_length; lia). rewrite seq_nth by lia. cbn [option_map]. do 2 f_equal.
    - rewrite (proj2 (nth_error_None _ _)); [reflexivity|]. rewrite seq_length. lia. }
  clear H. revert X. generalize (map F (between 0 c)) as m. induction l as [|x l IH]; intros m X.
  - destruct m; [reflexivity|]. specialize (X 0%nat). discriminate X.
  - destruct m as [|y m]; [specialize (X 0%nat); discriminate X|]. pose proof (X 0%nat) as X0. injection X0 as ->. f_equal. apply IH. intros n. exact (X (S n)).
Qed.
Lemma map_res_ok {A B} (f : A -> res B) (g : A -> B) l : (forall x, In x l -> f x = Ok (g x)) -> map_res f l = Ok (map g l).
Proof.
  induction l as [|x l IH]; intros H; [reflexivity|]. cbn [map_res map]. rewrite (H x (or_introl eq_refl)). cbn [rbind]. rewrite IH by (intros y Y; apply H; right; exact Y). reflexivity.
Qed.
Lemma in_between a b i : In i (between a b) <-> a <= i < b.
Proof. unfold between. split; intros I; [apply in_map_iff in I as (m & <- & M); apply in_seq in M; lia|]. apply in_map_iff. exists (Z.to_nat (i - a)). split; [lia|]. apply in_seq. lia. Qed.
Lemma between_len n : 0 <= n -> zlen (between 0 n) = n.
Proof. intros H. unfold zlen, between. rewrite map_length, seq_length. lia. Qed.

Definition num_at (a : arrangement) (item : Z) (g : naudio) (ch i : Z) : num := audio_num (na_fmt g) (sample_bytes item (na_buffer g) (position a (na_channels g) (na_samples g) ch i)).
Lemma arrays_of a item g : laid_out a item g -> exists F, na_views g = map F (between 0 (na_channels g)) /\
  forall ch, 0 <= ch < na_channels g -> na_array g (F ch) = Ok (map (num_at a item g ch) (between 0 (na_samples g))).
Proof.
  intros LO. pose proof LO as (P & S & R & n & L & V). exists (arr_view a (na_samples g) (na_channels g) n item). split; [exact (list_by_index _ _ _ V)|].
  intros ch C. assert (RN : room a (na_channels g) (na_samples g) <= n) by (rewrite L in R; nia).
  destruct (arr_places a (na_samples g) (na_channels g) n item ch S C RN) as (A & _). unfold na_array. rewrite A, zrange_between. apply map_res_ok. intros i I. apply in_between in I.
  pose proof (get_spec a item g ch i LO) as G. unfold na_get in G. replace (ch <? 0) with false in G by lia. rewrite V in G by lia. replace (ch <? na_channels g) with true in G by lia.
  replace (in_grain g ch i) with true in G by (unfold in_grain; lia). rewrite G. reflexivity.
Qed.

(** ** Two of them. *)
Lemma combine_map {A B C} (f : A -> B) (g : A -> C) l : combine (map f l) (map g l) = map (fun x => (f x, g x)) l.
Proof. induction l as [|x l IH]; [reflexivity|]. cbn [map combine]. rewrite IH. reflexivity. Qed.
Lemma map_res_map {A B C} (f : B -> res C) (g : A -> B) l : map_res f (map g l) = map_res (fun x => f (g x)) l.
Proof. induction l as [|x l IH]; [reflexivity|]. cbn [map map_res]. rewrite IH. reflexivity. Qed.
Lemma map_res_forall2 {A B} (f : A -> res B) (P : A -> B -> Prop) l : (forall x, In x l -> exists v, f x = Ok v /\ P x v) -> exists vs, map_res f l = Ok vs /\ Forall2 P l vs.
Proof.
  induction l as [|x l IH]; intros H; [exists []; split; [reflexivity|constructor]|]. destruct (H x (or_introl eq_refl)) as (v & E & Q). destruct (IH (fun y Y => H y (or_intror Y))) as (vs & E' & F).
  exists (v :: vs). split; [|constructor; assumption]. cbn [map_res]. rewrite E. cbn [rbind]. rewrite E'. reflexivity.
Qed.
Lemma forall2_weaken {A B} (P Q : A -> B -> Prop) l vs : (forall x v, P x v -> Q x v) -> Forall2 P l vs -> Forall2 Q l vs.
Proof. intros H F. induction F; constructor; auto. Qed.
Lemma sumsq_map n f : sumsq (map f (between 0 n)) = sum n (fun i => f i * f i).
Proof. unfold sumsq, sum. rewrite map_map. reflexivity. Qed.
Lemma channels_ratio a item g g' m (u v : Z -> Z -> Z) : laid_out a item g -> laid_out a item g' -> na_channels g' = na_channels g -> na_samples g' = na_samples g ->
  0 < audio_unit (na_fmt g) -> m <> 0 ->
  (forall ch i, 0 <= ch < na_channels g -> 0 <= i < na_samples g -> num_at a item g ch i = Fin (u ch i) /\ num_at a item g' ch i = Fin (v ch i)) ->
  exists vs, map_res (channel_psnr (Some m) g g') (combine (na_views g) (na_views g')) = Ok vs /\
    Forall2 (fun ch r => is_psnr (m * audio_unit (na_fmt g)) (na_samples g) (sum (na_samples g) (fun i => (u ch i - v ch i) * (u ch i - v ch i))) r) (between 0 (na_channels g)) vs.
Proof.
  intros LO LO' C S U M N. destruct (arrays_of a item g LO) as (F & VF & AF). destruct (arrays_of a item g' LO') as (G & VG & AG). rewrite C in VG. rewrite VF, VG, combine_map, map_res_map.
  apply map_res_forall2. intros ch I. apply in_between in I. unfold channel_psnr. cbn [fst snd]. rewrite (AF ch I), (AG ch ltac:(rewrite C; exact I)). cbn [rbind]. rewrite S.
  unfold pair_up. replace (zlen (map (num_at a item g ch) (between 0 (na_samples g)))) with (zlen (map (num_at a item g' ch) (between 0 (na_samples g)))) by (unfold zlen; rewrite !map_length; reflexivity).
  rewrite Z.eqb_refl. cbn [rbind]. rewrite combine_map, map_map. cbn [fst snd].
  assert (E : map (fun i => n_sub (num_at a item g ch i) (num_at a item g' ch i)) (between 0 (na_samples g)) = map Fin (map (fun i => u ch i - v ch i) (between 0 (na_samples g)))).
  { rewrite map_map. apply map_ext_in. intros i J. apply in_between in J. destruct (N ch i I J) as [-> ->]. reflexivity. }
  rewrite E. destruct (element_finite m (audio_unit (na_fmt g)) (map (fun i => u ch i - v ch i) (between 0 (na_samples g))) M U) as (r & X & Q). exists r. split; [exact X|].
  rewrite sumsq_map in Q. replace (zlen (map (fun i => u ch i - v ch i) (between 0 (na_samples g)))) with (na_samples g) in Q; [exact Q|].
  unfold zlen. rewrite map_length. fold (zlen (between 0 (na_samples g))). rewrite between_len; [reflexivity|]. destruct LO as (_ & S0 & _). exact S0.
Qed.

(** ** The numpy grain of a grain. *)
Lemma numpy_sound now rw o f s c d : audio_of o f s c d ->
  numpy_audio now rw o = (match na_new rw f s c d with Ok g => mkO KAudio (o_meta o) (Some (na_data g)) (o_wait o) | Err _ => o end, na_new rw f s c d).
Proof.
  intros [C F T FM SM CH D L B]. destruct F as [_ F]. rewrite C in F. specialize (F now).
  assert (NB : forall x, not_bytes KAudio x) by (intros x; exact Logic.I).
  pose proof (init_again KAudio now now (o_meta o) ANone (ABytes d) _ (NB _) (NB _) F) as E. cbn [o_meta] in E.
  assert (DD : o_data o = Some d) by (unfold get_data in D; rewrite C in D; congruence).
  unfold numpy_audio. rewrite C, D. cbn [rbind arg_of_data]. rewrite E. cbn [rbind]. set (n := mk KAudio (o_meta o) (ABytes d)).
  assert (GD : get_data n = Ok (Some d)) by reflexivity. rewrite GD. cbn [rbind].
  assert (G : forall t, In t [$"format"; $"samples"; $"channels"] -> getattr n t = getattr o t).
  { intros t I. clear - C I. destruct o as [cl m x y]. cbn [o_class] in C. subst cl. cbn [In] in I. destruct I as [<-|[<-|[<-|[]]]]; reflexivity. }
  unfold attr. rewrite !G by (cbn [In]; tauto). rewrite FM, SM, CH. cbn [rbind to_int as_count]. rewrite DD. reflexivity.
Qed.

(** ** Whole numbers. *)
Lemma twos_signed size b : zlen b = size -> twos b = signed size b.
Proof. intros <-. unfold twos, signed. rewrite le_dec_little. reflexivity. Qed.
Lemma zfirst_all {A} n (l : list A) : zlen l = n -> zfirst n l = l.
Proof. intros <-. unfold zlen. rewrite zfirst_firstn, Nat2Z.id. apply firstn_all. Qed.
Lemma scaled_psnr peak k count (f : Z -> Z) v : 0 < k -> is_psnr (k * peak) count (sum count (fun i => (k * f i) * (k * f i))) v -> is_psnr peak count (sum count (fun i => f i * f i)) v.
Proof.
  intros K (A & B & C). assert (E : sum count (fun i => (k * f i) * (k * f i)) = k * k * sum count (fun i => f i * f i)).
  { unfold sum. induction (between 0 count) as [|i l IH]; cbn [map fold_right]; [lia|]. rewrite IH. ring. }
  rewrite E in B, C. set (s := sum count (fun i => f i * f i)) in *. clearbody s. split; [exact A|]. split; [intros N ->; apply B; [exact N|ring]|].
  intros N S. destruct (C N) as (n & d & -> & N0 & D0 & Q); [nia|]. exists n, d. split; [reflexivity|]. split; [exact N0|]. split; [exact D0|]. clear - Q K. nia.
Qed.
Lemma in_whole f a size low : In (f, (a, size, low)) whole_table ->
  AUDIO_IS_INT f = true /\ AUDIO_IS_COMPRESSED f = false /\ audio_unit f = 1 /\ audio_max f = Some (scale low * 2 ^ (8 * low - 1)) /\ 0 < scale low /\
  (In (f, (a, size)) plain_table /\ low = size \/ In (f, (a, size)) packed_table /\ size = 3 /\ low = 3 \/ f = 4 /\ a = Planes /\ size = 4 /\ low = 3).
Proof.
  intros I. repeat (destruct I as [I|I]; [injection I as <- <- <- <-; split; [reflexivity|split; [reflexivity|split; [reflexivity|split; [reflexivity|split; [reflexivity|]]]]]; cbn [plain_table packed_table In]; intuition congruence|]). destruct I.
Qed.
(** What the arrays hold. *)
Lemma whole_new rw f a size low s c d : In (f, (a, size, low)) whole_table -> (f = 4 -> rw = true) -> 0 <= s -> 0 <= c -> zlen d = size_for_audio_format f c s -> bytes_ok d ->
  exists g, na_new rw f s c d = Ok g /\ na_fmt g = f /\ na_samples g = s /\ na_channels g = c /\ laid_out a (if low =? 3 then 4 else size) g /\
    (f <> 4 -> na_data g = d) /\ (f = 4 -> na_data g = shift_up d) /\
    forall ch i, 0 <= ch < c -> 0 <= i < s -> num_at a (if low =? 3 then 4 else size) g ch i = Fin (scale low * heard a size low s c d ch i).
Proof.
  intros I RW S C L OK. destruct (in_whole f a size low I) as (AI & _ & _ & _ & _ & K).
  assert (FM : forall g, na_new rw f s c d = Ok g -> na_fmt g = f).
  { intros g E. unfold na_new in E. destruct (audio_itemsize f); [|discriminate E]. cbn [rbind] in E. destruct (negb _); [discriminate E|]. destruct (AUDIO_IS_INT f && _).
    - destruct (AUDIO_SAMPLEBYTES f =? 3); [destruct (zlen d mod 3 =? 0); [injection E as <-; reflexivity|discriminate E]|]. destruct (negb _); [discriminate E|]. destruct (negb rw); [discriminate E|]. injection E as <-. reflexivity.
    - injection E as <-. reflexivity. }
  unfold num_at, audio_num, heard. destruct K as [[K ->]|[(K & -> & ->)|(-> & -> & -> & ->)]].
  - assert (P : 0 < size /\ size <> 3) by (clear - K; repeat (destruct K as [K|K]; [injection K as <- <- <-; lia|]); destruct K).
    assert (N4 : f <> 4) by (clear - K; repeat (destruct K as [K|K]; [injection K as <- <- <-; lia|]); destruct K).
    rewrite (room_size f a) with (size := size) in L by (apply in_or_app; left; exact K).
    destruct (new_plain rw f a size s c d K S ltac:(rewrite L; apply Z.mod_mul; lia) ltac:(lia)) as (g & E & D & CP & _ & GS & GC & LO). exists g. replace (size =? 3) with false by lia. unfold scale. replace (size =? 3) with false by lia.
    split; [exact E|]. split; [exact (FM g E)|]. split; [exact GS|]. split; [exact GC|]. split; [exact LO|]. split; [intros _; exact D|]. split; [intros X; destruct (N4 X)|].
    intros ch i CH IH. rewrite (FM g E), AI, GS, GC. unfold na_buffer. rewrite CP, D. f_equal. pose proof (position_in a c s ch i CH IH) as PI. set (p := position a c s ch i) in *. clearbody p.
    pose proof (sample_len size d p ltac:(lia) ltac:(lia) ltac:(rewrite L; nia)) as SL. rewrite (zfirst_all size _ SL), (twos_signed size _ SL). lia.
  - assert (N4 : f <> 4) by (clear - K; repeat (destruct K as [K|K]; [injection K as <- <-; lia|]); destruct K).
    pose proof L as L'. rewrite (room_size f a) with (size := 3) in L by (apply in_or_app; right; apply in_or_app; left; exact K).
    destruct (new_packed rw f a s c d K S ltac:(rewrite L; apply Z.mod_mul; lia) ltac:(lia)) as (g & E & D & CP & GS & GC & LO). exists g. change (3 =? 3) with true. cbv iota. change (scale 3) with 256.
    split; [exact E|]. split; [exact (FM g E)|]. split; [exact GS|]. split; [exact GC|]. split; [exact LO|]. split; [intros _; exact D|]. split; [intros X; destruct (N4 X)|].
    intros ch i CH IH. rewrite (FM g E), AI, GS, GC. unfold na_buffer. rewrite CP. f_equal. pose proof (position_in a c s ch i CH IH) as PI. set (p := position a c s ch i) in *. clearbody p.
    pose proof (sample_len 3 d p ltac:(lia) ltac:(lia) ltac:(rewrite L; nia)) as SL. rewrite (zfirst_all 3 _ SL).
    rewrite (widen_at (Z.to_nat (room a c s))); [|unfold zlen in L; lia|lia]. rewrite (twos_signed 4); [|rewrite zlen_cons, SL; reflexivity].
    apply signed_wide; [unfold zlen in SL; lia|]. unfold sample_bytes. apply bytes_ok_zfirst, bytes_ok_zskip. exact OK.
  - rewrite (RW eq_refl) in *. destruct (low_arrays s c d S C L OK) as (_ & g & E & DL & GS & GC & G & X). exists g. change (3 =? 3) with true. cbv iota. change (scale 3) with 256.
    pose proof L as L'. rewrite (room_size 0x4 Planes) with (size := 4) in L' by (apply in_or_app; right; apply in_or_app; right; left; reflexivity). cbn [room] in L'.
    assert (M : zlen d mod 4 = 0) by (rewrite L'; apply Z.mod_mul; lia).
    assert (EG : g = mkNa true 0x4 s c (shift_up d) None (channel_views 0x4 s c (zlen d / 4) 4)).
    { unfold na_new in E. cbn -[Z.modulo zlen channel_views Z.div shift_up] in E. rewrite Z.mod_1_r, M in E. cbn -[Z.modulo zlen channel_views Z.div shift_up] in E. injection E as <-. reflexivity. }
    split; [exact E|]. split; [exact (FM g E)|]. split; [exact GS|]. split; [exact GC|]. split.
    + rewrite EG. unfold laid_out, na_buffer. cbn [na_data na_copy na_samples na_channels na_views room]. split; [lia|]. split; [exact S|]. rewrite EG in DL. cbn [na_data] in DL. split; [rewrite DL; lia|].
      exists (zlen d / 4). split; [rewrite DL; pose proof (Z.div_mod (zlen d) 4 ltac:(lia)); lia|]. intros ch CH. exact (nth_views 0x4 Planes s c (zlen d / 4) 4 (fun _ => eq_refl) eq_refl ch CH).
    + split; [intros Y; destruct (Y eq_refl)|]. split; [intros _; rewrite EG; reflexivity|]. intros ch i CH IH. rewrite (FM g E), AI, GS, GC.
      replace (na_buffer g) with (na_data g) by (rewrite EG; reflexivity). f_equal. assert (IG : in_grain g ch i = true) by (unfold in_grain; rewrite GS, GC; lia).
      destruct (X ch i IG) as [X1 X2]. rewrite (twos_signed 4); [exact X2|]. rewrite X1, zlen_cons. pose proof (position_in Planes c s ch i CH IH) as PI. cbn [room] in PI. set (p := position Planes c s ch i) in *. clearbody p.
      pose proof (sample_len 4 d p ltac:(lia) ltac:(lia) ltac:(rewrite L'; nia)) as SL. unfold zlen in *. rewrite zfirst_firstn, firstn_length. lia.
Qed.
(** The tests before. *)
Lemma audio_tests now rwa rwb max a b f s c d d' : audio_of a f s c d -> audio_of b f s c d' -> AUDIO_IS_COMPRESSED f = false ->
  compute_psnr now rwa rwb max a b =
  (let (a', ga) := numpy_audio now rwa a in
   match ga with
   | Err e => (a', b, Err e)
   | Ok ga => let (b', gb) := numpy_audio now rwb b in
     (a', b', rbind gb (fun gb => map_res (channel_psnr (match max with Some m => Some m | None => audio_max (na_fmt ga) end) ga gb) (combine (na_views ga) (na_views gb))))
   end).
Proof.
  intros [CA _ TA FA SA HA _ _ _] [CB _ TB FB SB HB _ _ _] CM. unfold compute_psnr. rewrite TA, TB. cbn [rbind].
  replace (py_eq (PStr $"audio") (PStr $"audio")) with true by reflexivity. cbn [negb]. replace (type_is (PStr $"audio") $"video") with false by reflexivity. replace (type_is (PStr $"audio") $"audio") with true by reflexivity.
  unfold audio_psnr. rewrite HA, HB, SA, SB. cbn [rbind]. rewrite !py_int. cbn [negb]. unfold attr. rewrite FA, FB. cbn [rbind to_int]. rewrite Z.eqb_refl, CM. cbn [negb]. reflexivity.
Qed.
Lemma unchanged a f s c d : audio_of a f s c d -> mkO KAudio (o_meta a) (Some d) (o_wait a) = a.
Proof. intros [C _ _ _ _ _ D _ _]. assert (DD : o_data a = Some d) by (unfold get_data in D; rewrite C in D; congruence). destruct a as [cl m x y]. cbn [o_class o_data o_meta o_wait] in *. subst. reflexivity. Qed.

Theorem audio_ratio now rwa rwb max a b f ar size low s c d d' : audio_of a f s c d -> audio_of b f s c d' -> In (f, (ar, size, low)) whole_table -> f <> 4 \/ rwa = true /\ rwb = true ->
  0 <= s -> 0 <= c -> max <> Some 0 ->
  exists a' b' vs, compute_psnr now rwa rwb max a b = (a', b', Ok vs) /\
    Forall2 (fun ch v =>
      let diff i := heard ar size low s c d ch i - heard ar size low s c d' ch i in
      is_psnr (peak_or max (scale low * 2 ^ (8 * low - 1))) s (sum s (fun i => scale low * diff i * (scale low * diff i))) v /\
      (max = None -> is_psnr (2 ^ (8 * low - 1)) s (sum s (fun i => diff i * diff i)) v)) (between 0 c) vs /\
    (f <> 4 -> a' = a /\ b' = b) /\
    (f = 4 -> o_meta a' = o_meta a /\ o_meta b' = o_meta b /\
      forall o' e, (o' = a' /\ e = d) \/ (o' = b' /\ e = d') -> exists e', o_data o' = Some e' /\ zlen e' = zlen e /\
        forall p, 0 <= p < zlen e / 4 -> sample_bytes 4 e' p = 0 :: zfirst 3 (sample_bytes 4 e p)).
Proof.
  intros VA VB I RW S C MX. destruct (in_whole f ar size low I) as (AI & CM & AU & AM & SC & K).
  rewrite (audio_tests now rwa rwb max a b f s c d d' VA VB CM). rewrite (numpy_sound now rwa a f s c d VA), (numpy_sound now rwb b f s c d' VB).
  destruct (whole_new rwa f ar size low s c d I ltac:(intros E; destruct RW as [RW|RW]; [destruct (RW E)|exact (proj1 RW)]) S C (ao_length _ _ _ _ _ VA) (ao_bytes _ _ _ _ _ VA)) as (g & E & FM & GS & GC & LO & D & D4 & N).
  destruct (whole_new rwb f ar size low s c d' I ltac:(intros E'; destruct RW as [RW|RW]; [destruct (RW E')|exact (proj2 RW)]) S C (ao_length _ _ _ _ _ VB) (ao_bytes _ _ _ _ _ VB)) as (g' & E' & FM' & GS' & GC' & LO' & D' & D4' & N').
  rewrite E, E'. cbv iota beta. cbn [rbind]. rewrite FM, AM.
  set (peak := peak_or max (scale low * 2 ^ (8 * low - 1))).
  assert (LB : 0 < 8 * low - 1) by (clear - I; repeat (destruct I as [I|I]; [injection I as <- <- <- <-; lia|]); destruct I).
  assert (PK : peak <> 0).
  { unfold peak, peak_or. destruct max as [m|]; [intros ->; exact (MX eq_refl)|]. pose proof (Z.pow_pos_nonneg 2 (8 * low - 1) ltac:(lia) ltac:(lia)). clear - H SC. nia. }
  replace (match max with Some m => Some m | None => Some (scale low * 2 ^ (8 * low - 1)) end) with (Some peak) by (unfold peak, peak_or; destruct max; reflexivity).
  destruct (channels_ratio ar _ g g' peak (fun ch i => scale low * heard ar size low s c d ch i) (fun ch i => scale low * heard ar size low s c d' ch i) LO LO' ltac:(congruence) ltac:(congruence) ltac:(rewrite FM, AU; lia) PK) as (vs & EV & FV).
  { intros ch i CH IH. rewrite GC in CH. rewrite GS in IH. split; [exact (N ch i CH IH)|exact (N' ch i CH IH)]. }
  rewrite EV. eexists. eexists. exists vs. split; [reflexivity|]. split.
  - rewrite FM, AU, GS, GC, Z.mul_1_r in FV. revert FV. apply forall2_weaken. cbv beta zeta. intros ch v Q.
    assert (Q' : is_psnr peak s (sum s (fun i => scale low * (heard ar size low s c d ch i - heard ar size low s c d' ch i) * (scale low * (heard ar size low s c d ch i - heard ar size low s c d' ch i)))) v).
    { replace (sum s _) with (sum s (fun i => (scale low * heard ar size low s c d ch i - scale low * heard ar size low s c d' ch i) * (scale low * heard ar size low s c d ch i - scale low * heard ar size low s c d' ch i))); [exact Q|]. apply sum_ext. intros i _. ring. }
    split; [exact Q'|]. intros ->. exact (scaled_psnr (2 ^ (8 * low - 1)) (scale low) s _ v SC Q').
  - split.
    + intros F. rewrite (D F), (D' F), (unchanged a f s c d VA), (unchanged b f s c d' VB). split; reflexivity.
    + intros F. split; [reflexivity|]. split; [reflexivity|].
      assert (X : forall e, zlen e = size_for_audio_format f c s -> bytes_ok e -> zlen (shift_up e) = zlen e /\ forall p, 0 <= p < zlen e / 4 -> sample_bytes 4 (shift_up e) p = 0 :: zfirst 3 (sample_bytes 4 e p)).
      { intros e L OK. rewrite F, (room_size 0x4 Planes) with (size := 4) in L by (apply in_or_app; right; apply in_or_app; right; left; reflexivity). cbn [room] in L. set (n := c * s) in *. assert (N0 : 0 <= n) by (unfold n; nia). clearbody n.
        assert (L2 : zlen e / 4 = n) by (rewrite L; apply Z.div_mul; lia). rewrite L2. split; [unfold zlen in *; rewrite (shift_up_len (Z.to_nat n)); lia|]. intros p P. apply (shift_up_at (Z.to_nat n)); [unfold zlen in L; lia|exact OK|lia]. }
      intros o' e [[-> ->]|[-> ->]].
      * eexists. cbn [o_data]. rewrite (D4 F). split; [reflexivity|]. exact (X d (ao_length _ _ _ _ _ VA) (ao_bytes _ _ _ _ _ VA)).
      * eexists. cbn [o_data]. rewrite (D4' F). split; [reflexivity|]. exact (X d' (ao_length _ _ _ _ _ VB) (ao_bytes _ _ _ _ _ VB)).
Qed.

(** ** Floating point. *)
Lemma float_num mant exp bits v : 0 < mant -> 0 < exp -> is_float mant exp bits v -> ieee mant exp bits = Fin v.
Proof.
  intros M X (s & e & m & S & E & F & B & V). unfold ieee.
  assert (PM : 0 < 2 ^ mant) by (apply Z.pow_pos_nonneg; lia). assert (PX : 0 < 2 ^ exp) by (apply Z.pow_pos_nonneg; lia).
  assert (D : bits / 2 ^ mant = s * 2 ^ exp + e) by (rewrite B, Z.div_add_l, (Z.div_small m) by lia; lia).
  assert (R : bits mod 2 ^ mant = m) by (rewrite B, Z.add_comm, Z.mod_add, Z.mod_small by lia; reflexivity).
  assert (DD : bits / 2 ^ (mant + exp) = s) by (rewrite Z.pow_add_r, <- Z.div_div by lia; rewrite D, Z.div_add_l, (Z.div_small e) by lia; lia).
  assert (EE : (bits / 2 ^ mant) mod 2 ^ exp = e) by (rewrite D, Z.add_comm, Z.mod_add, Z.mod_small by lia; reflexivity).
  rewrite DD, EE, R. destruct (e =? 2 ^ exp - 1) eqn:Q; [lia|]. f_equal. rewrite V. destruct S as [-> | ->]; cbn [Z.eqb negb]; destruct (e =? 0); lia.
Qed.
Theorem float_ratio now rwa rwb max a b f ar size mant exp s c d d' (u v : Z -> Z -> Z) : audio_of a f s c d -> audio_of b f s c d' -> In (f, (ar, size, (mant, exp))) float_table ->
  0 <= s -> 0 <= c -> max <> Some 0 ->
  (forall ch i, 0 <= ch < c -> 0 <= i < s -> is_float mant exp (little_endian (sample_bytes size d (position ar c s ch i))) (u ch i) /\
                                             is_float mant exp (little_endian (sample_bytes size d' (position ar c s ch i))) (v ch i)) ->
  exists vs, compute_psnr now rwa rwb max a b = (a, b, Ok vs) /\
    Forall2 (fun ch r => is_psnr (peak_or max 1 * 2 ^ (2 ^ (exp - 1) - 2 + mant)) s (sum s (fun i => (u ch i - v ch i) * (u ch i - v ch i))) r) (between 0 c) vs.
Proof.
  intros VA VB I S C MX N.
  assert (X : In (f, (ar, size)) plain_table /\ AUDIO_IS_COMPRESSED f = false /\ audio_max f = Some 1 /\ audio_unit f = ieee_unit mant exp /\ 0 < mant /\ 0 < exp /\ 0 < size /\ forall b, audio_num f b = ieee mant exp (le_dec b)).
  { clear - I. repeat (destruct I as [I|I]; [injection I as <- <- <- <- <-; split; [cbn [plain_table In]; intuition congruence|split; [reflexivity|split; [reflexivity|split; [reflexivity|split; [lia|split; [lia|split; [lia|reflexivity]]]]]]]|]). destruct I. }
  destruct X as (K & CM & AM & AU & PM & PX & P & AN).
  assert (Y : forall rw e, zlen e = size_for_audio_format f c s -> exists g, na_new rw f s c e = Ok g /\ na_data g = e /\ na_samples g = s /\ na_channels g = c /\ laid_out ar size g /\ na_fmt g = f /\
     forall ch i, num_at ar size g ch i = ieee mant exp (little_endian (sample_bytes size e (position ar c s ch i)))).
  { intros rw e L. rewrite (room_size f ar) with (size := size) in L by (apply in_or_app; left; exact K).
    destruct (new_plain rw f ar size s c e K S ltac:(rewrite L; apply Z.mod_mul; lia) ltac:(lia)) as (g & E & D & CP & _ & GS & GC & LO). exists g.
    assert (FM : na_fmt g = f).
    { clear - E. unfold na_new in E. destruct (audio_itemsize f); [|discriminate E]. cbn [rbind] in E. destruct (negb _); [discriminate E|]. destruct (AUDIO_IS_INT f && _).
      - destruct (AUDIO_SAMPLEBYTES f =? 3); [destruct (zlen e mod 3 =? 0); [injection E as <-; reflexivity|discriminate E]|]. destruct (negb _); [discriminate E|]. destruct (negb rw); [discriminate E|]. injection E as <-. reflexivity.
      - injection E as <-. reflexivity. }
    split; [exact E|]. split; [exact D|]. split; [exact GS|]. split; [exact GC|]. split; [exact LO|]. split; [exact FM|].
    intros ch i. unfold num_at. rewrite FM, GS, GC, AN, le_dec_little. unfold na_buffer. rewrite CP, D. reflexivity. }
  rewrite (audio_tests now rwa rwb max a b f s c d d' VA VB CM). rewrite (numpy_sound now rwa a f s c d VA), (numpy_sound now rwb b f s c d' VB).
  destruct (Y rwa d (ao_length _ _ _ _ _ VA)) as (g & E & D & GS & GC & LO & FM & NG). destruct (Y rwb d' (ao_length _ _ _ _ _ VB)) as (g' & E' & D' & GS' & GC' & LO' & FM' & NG').
  rewrite E, E'. cbv iota beta. cbn [rbind]. rewrite FM, AM, D, D', (unchanged a f s c d VA), (unchanged b f s c d' VB).
  assert (PK : peak_or max 1 <> 0) by (unfold peak_or; destruct max as [m|]; [intros ->; exact (MX eq_refl)|lia]).
  replace (match max with Some m => Some m | None => Some 1 end) with (Some (peak_or max 1)) by (unfold peak_or; destruct max; reflexivity).
  assert (PU : 0 < audio_unit (na_fmt g)).
  { rewrite FM, AU. unfold ieee_unit. apply Z.pow_pos_nonneg; [lia|]. clear - PX PM. pose proof (Z.pow_pos_nonneg 2 (exp - 1) ltac:(lia) ltac:(lia)). lia. }
  destruct (channels_ratio ar size g g' (peak_or max 1) u v LO LO' ltac:(congruence) ltac:(congruence) PU PK) as (vs & EV & FV).
  { intros ch i CH IH. rewrite GC in CH. rewrite GS in IH. destruct (N ch i CH IH) as [U V]. rewrite NG, NG'. split; apply float_num; assumption. }
  rewrite EV. exists vs. split; [reflexivity|]. rewrite FM, AU, GS, GC in FV. exact FV.
Qed.
