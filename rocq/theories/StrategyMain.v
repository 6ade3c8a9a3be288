From Coq Require Import String Lia ZifyBool ZifyNat.
From Verif Require Import Base BaseProofs GsfPrim GsfPrimProofs GsfDecode GsfEncode GsfSpec GsfFileSpec GsfEncState GsfEncDecodeSpec PyValue PyValueProofs Json JsonProofs CogEnums VideoLayout GrainObj Event EventSpec
  BuildSpec BuildProofs BuildMain BuildKw GrainSet GrainSetSpec GrainCopy GrainCopySpec GrainCopyProofs Compare CompareSpec CompareLaws GrainGsf GrainGsfSpec GrainGsfRead GrainGsfFileSpec
  SavedSpec SavedMain PyValue GrainObj Tools ToolsMain Strategies StrategySpec StrategyProofs StrategyArgs StrategyDraw StrategyData StrategySaved StrategyCompared.
Local Open Scope list_scope.
Ltac Zify.zify_post_hook ::= Z.div_mod_to_equations.

(** ** The six together. *)
Definition drawn_grain (now : Z) (o : gobj) : Prop :=
  (exists b, is_audio_with now b o) \/ (exists b, is_video_with now b o) \/ is_coded_audio now o \/ is_coded_video 16 9 now o \/ is_event now o \/ is_empty now o.
Lemma drawn_with t now r : In t grain_types -> can_be_with_data t now r -> exists o, r = Ok o /\ o_class o = class_of t /\ drawn_grain now o.
Proof.
  intros T B. unfold drawn_grain. destruct (dest6 t T) as [->|[->|[->|[->|[->| ->]]]]].
  - destruct (empty_draws now r B) as (o & -> & H). exists o. split; [reflexivity|]. split; [destruct H as (k & _ & ->); reflexivity|auto 10].
  - destruct (audio_with now r B) as (o & b & -> & H). exists o. split; [reflexivity|]. split; [destruct H as (k & f & s & c & rt & _ & _ & _ & _ & _ & -> & _); reflexivity|eauto 10].
  - destruct (coded_audio_with now r B) as (o & -> & H). exists o. split; [reflexivity|]. split; [destruct H as (k & f & s & c & rt & _ & _ & _ & _ & _ & ->); reflexivity|eauto 10].
  - destruct (event_draws now r B) as (o & -> & H). exists o. split; [reflexivity|]. split; [destruct H as (k & f & s & c & _ & _ & _ & _ & ->); reflexivity|eauto 10].
  - destruct (video_with now r B) as (o & b & -> & H). exists o. split; [reflexivity|]. split; [destruct H as (k & f & l & _ & _ & _ & -> & _); reflexivity|eauto 10].
  - destruct (coded_video_with now r B) as (o & -> & H). exists o. split; [reflexivity|]. split; [destruct H as (k & f & l & key & tm & u & _ & _ & _ & _ & _ & ->); reflexivity|eauto 10].
Qed.
Lemma drawn_writable now o : drawn_grain now o -> exists g, writable o g.
Proof.
  intros [(b & H)|[(b & H)|[H|[H|[H|H]]]]]; [exact (audio_writable now b o H)|exact (video_writable now b o H)|exact (coded_audio_writable now o H)|exact (coded_video_writable now o H)|exact (event_writable now o H)|exact (empty_writable now o H)].
Qed.
Lemma drawn_comparable psnr opts major now o : drawn_grain now o -> plain_options opts -> fits_version major o -> comparable psnr opts major o /\ no_nan o.
Proof.
  intros [(b & H)|[(b & H)|[H|[H|[H|H]]]]]; [exact (audio_comparable psnr opts major now b o H)|exact (video_comparable psnr opts major now b o H)|exact (coded_audio_comparable psnr opts major now o H)
    |exact (coded_video_comparable psnr opts major now o H)|exact (event_comparable psnr opts major now o H)|exact (empty_comparable psnr opts major now o H)].
Qed.
Lemma drawn_filled now o : drawn_grain now o -> filled o.
Proof.
  unfold filled. intros [(b & k & f & s & c & r & K & F & S & C & R & -> & L & B & P)|[(b & k & f & l & K & F & L & -> & LB & B)|[(k & f & s & c & r & _ & _ & _ & _ & _ & ->)|[(k & f & l & key & tm & u & _ & _ & _ & _ & _ & ->)|[(k & kind & topic & xs & _ & _ & _ & _ & ->)|(k & _ & ->)]]]]].
  - cbn [kw_obj o_class]. exists b. split; [reflexivity|]. split; [exact B|]. rewrite L. apply (audio_expected now k f s c r (Some b) None). exact (proj1 (audio_format_drawn f F)).
  - cbn [kw_obj o_class]. exists b. split; [reflexivity|]. split; [exact B|]. rewrite LB. etransitivity; [exact (video_expected now k f 16 9 l (Some b))|]. apply video_length; [exact F|right; reflexivity].
  - cbn [kw_obj o_class]. exists []. split; [reflexivity|]. split; [constructor|]. kw_cases. reflexivity.
  - cbn [kw_obj o_class]. exists []. split; [reflexivity|]. split; [constructor|]. kw_cases. destruct u; reflexivity.
  - exact I.
  - reflexivity.
Qed.
Lemma plain_nil : plain_options [].
Proof. split; [split; intros p m []|intros []]. Qed.
Theorem with_data t now r : In t grain_types -> can_be_with_data t now r -> exists o, r = Ok o /\ o_class o = class_of t /\ filled o /\ no_nan o /\ exists g, writable o g.
Proof.
  intros T B. destruct (drawn_with t now r T B) as (o & -> & C & D). exists o. split; [reflexivity|]. split; [exact C|]. split; [exact (drawn_filled now o D)|]. split; [|exact (drawn_writable now o D)].
  refine (proj2 (drawn_comparable (fun _ _ => Err EFuel) [] 8 now o D plain_nil _)). split; [auto|]. intros X. discriminate X.
Qed.

(** ** Saved and read back. *)
Lemma some_drawn_grain o : some_drawn o -> exists now, drawn_grain now o.
Proof. intros (t & now & T & B). destruct (drawn_with t now _ T B) as (o' & E & _ & D). apply Ok_eq in E. subst o'. exists now. exact D. Qed.
Theorem drawn_files psnr opts os seg_id stags major minor id created :
  Forall some_drawn os -> Forall (fits_version major) os -> plain_options opts -> (major = 7 \/ major = 8 \/ major = 9) ->
  u16 minor -> uuid_ok id -> dt_valid created = true -> uuid_ok seg_id -> Forall tag_fits stags -> i64 (zlen os) ->
  zlen (enc_head id created [(mkESeg 1 seg_id None stags, 0)] []) < 4294967296 ->
  exists gs, Forall2 writable os gs /\
    (Forall (grain_fits major) (map (pair 1) gs) -> exists data, GsfEncState.dumps gs seg_id stags major minor id created false = Ok data /\
      forall k strict fwd now, at_once k -> k_ids k = None ->
      exists s l os' r, decode_file k (mkFile data 0 strict fwd) = Ok (s, (l, s, Done)) /\ map_res (item_object now data) l = Ok os' /\
        compare_grains_pairwise psnr false opts os os' = Ok (r, zlen os) /\ r_equal r = true).
Proof.
  intros D V O M U I DT S TG L H.
  assert (W : exists gs, Forall2 writable os gs).
  { clear - D. induction D as [|o os Ho _ (gs & IH)]; [exists []; constructor|]. destruct (some_drawn_grain o Ho) as (now & G). destruct (drawn_writable now o G) as (g & W). exists (g :: gs). constructor; assumption. }
  destruct W as (gs & W). exists gs. split; [exact W|]. intros F.
  assert (LE : zlen gs = zlen os) by (clear - W; induction W as [|o g os gs _ _ IH]; [reflexivity|rewrite !zlen_cons, IH; reflexivity]).
  assert (C : Forall (comparable psnr opts major) os).
  { clear - D V O. rewrite Forall_forall in *. intros o I. destruct (some_drawn_grain o (D o I)) as (now & G). exact (proj1 (drawn_comparable psnr opts major now o G O (V o I))). }
  apply (file_equal psnr opts os gs seg_id stags major minor id created); trivial. rewrite LE. exact L.
Qed.

(** ** Different payloads compare different. *)
Lemma sample_skip w i x : 0 <= w -> 0 <= i -> sample w i (zskip w x) = sample w (i + 1) x.
Proof. intros W I. unfold sample. rewrite zskip_zskip by nia. f_equal. f_equal. lia. Qed.
Lemma samples_eq w (x y : bytes) : 0 < w -> zlen x = zlen y -> zlen x mod w = 0 -> (forall i, 0 <= i < zlen x / w -> sample w i x = sample w i y) -> x = y.
Proof.
  intros W. remember (Z.to_nat (zlen x / w)) as n eqn:E. revert x y E. induction n as [|n IH]; intros x y E L M H; pose proof (zlen_nonneg x) as X.
  - assert (Q : zlen x = 0) by nia. destruct x; [|rewrite zlen_cons in Q; pose proof (zlen_nonneg x); lia]. destruct y; [reflexivity|]. rewrite Q, zlen_cons in L. pose proof (zlen_nonneg y). lia.
  - assert (Q : w <= zlen x) by nia. rewrite <- (zfirst_zskip w x), <- (zfirst_zskip w y). f_equal.
    + specialize (H 0 ltac:(nia)). unfold sample in H. rewrite Z.mul_0_r, !zskip_le0 in H by lia. exact H.
    + assert (L1 : zlen (zskip w x) = zlen x - w) by (rewrite zlen_zskip by lia; lia). assert (L2 : zlen (zskip w y) = zlen y - w) by (rewrite zlen_zskip by lia; lia).
      assert (D : (zlen x - w) / w = zlen x / w - 1) by (replace (zlen x - w) with (zlen x + (-1) * w) by lia; rewrite Z.div_add by lia; lia).
      apply IH; rewrite ?L1, ?L2, ?D; try lia.
      intros i I. rewrite !sample_skip by lia. apply H. lia.
Qed.
Lemma floats_eq w (nan zero : bytes -> Prop) (x y : bytes) : 0 < w -> zlen x mod w = 0 -> (forall b, zero b -> b = zeros (Z.to_nat w) \/ b = zeros (Z.to_nat (w - 1)) ++ [128]) ->
  (forall i, 0 <= i < zlen x / w -> sample w i x <> zeros (Z.to_nat (w - 1)) ++ [128]) -> (forall i, 0 <= i < zlen y / w -> sample w i y <> zeros (Z.to_nat (w - 1)) ++ [128]) ->
  zlen x = zlen y -> (forall i, 0 <= i < zlen x / w -> same_float nan zero (sample w i x) (sample w i y)) -> x = y.
Proof.
  intros W M Z X Y L H. apply (samples_eq w); trivial. intros i I. destruct (H i I) as (_ & _ & [E|[ZX ZY]]); [exact E|].
  specialize (X i I). rewrite L in I. specialize (Y i I). destruct (Z _ ZX) as [->|E]; [|destruct (X E)]. destruct (Z _ ZY) as [->|E]; [reflexivity|destruct (Y E)].
Qed.
Lemma plain_payloads f x y : zlen x mod 4 = 0 \/ audio_kind f <> Singles -> zlen x mod 8 = 0 \/ audio_kind f <> Doubles -> plain_floats f x -> plain_floats f y ->
  audio_kind f <> Triples -> payload_agrees (audio_kind f) x y -> x = y.
Proof.
  intros M4 M8 [X4 X8] [Y4 Y8] T A. destruct (audio_kind f) eqn:K; [exact A|destruct (T eq_refl)| |]; destruct A as [L A].
  - destruct M4 as [M|N]; [|destruct (N eq_refl)]. apply (floats_eq 4 single_nan single_zero); try assumption; [lia| |intros i I; apply (X4 eq_refl i I)|intros i I; apply (Y4 eq_refl i I)].
    intros b B. exact B.
  - destruct M8 as [M|N]; [|destruct (N eq_refl)]. apply (floats_eq 8 double_nan double_zero); try assumption; [lia| |intros i I; apply (X8 eq_refl i I)|intros i I; apply (Y8 eq_refl i I)].
    intros b B. exact B.
Qed.
Lemma same_data psnr with_psnr k opts a b x y : no_matchers opts -> ~ waived opts (path $"data") -> get_data a = Ok (Some x) -> get_data b = Ok (Some y) ->
  data_agree psnr with_psnr k opts a b -> payload_agrees k x y.
Proof.
  intros [_ N] W A B [H|[(_ & (m & H) & _)|(_ & [[H _]|(x' & y' & HX & HY & P)])]]; [destruct (W H)|destruct (N _ _ H)|congruence|]. replace x with x' by congruence. replace y with y' by congruence. exact P.
Qed.
Lemma one_meta c now k part d now' k' part' d' : o_meta (kw_obj c now k part d None) = o_meta (kw_obj c now' k' part' d' None) -> kw_obj c now' k' part' d' None = kw_obj c now k part d' None.
Proof. unfold kw_obj. cbn [o_meta]. intros <-. reflexivity. Qed.
Lemma drawn_differ psnr opts t now now' o o' r : In t grain_types -> can_be_with_data t now (Ok o) -> can_be_with_data t now' (Ok o') -> o_meta o = o_meta o' ->
  no_matchers opts -> ~ waived opts (path $"data") -> ~ packed24 o -> compare_grain psnr opts o o' = Ok r -> r_equal r = true -> o = o'.
Proof.
  intros T B B' M N W P C R.
  assert (S : stored_ok o /\ stored_ok o').
  { pose proof (drawn_with t now _ T B) as (o1 & E & _ & D). apply Ok_eq in E. subst o1. pose proof (drawn_with t now' _ T B') as (o1 & E & _ & D'). apply Ok_eq in E. subst o1.
    assert (V : forall x : gobj, fits_version 8 x) by (intros x; split; [auto|intros X; discriminate X]).
    destruct (proj1 (drawn_comparable psnr [] 8 now o D plain_nil (V o))) as (_ & _ & _ & S1 & _). destruct (proj1 (drawn_comparable psnr [] 8 now' o' D' plain_nil (V o'))) as (_ & _ & _ & S2 & _). auto. }
  apply (proj1 (grain_agree psnr opts o o' r (proj1 S) (proj2 S) C)) in R. destruct (dest6 t T) as [->|[->|[->|[->|[->| ->]]]]].
  - destruct (empty_draws now _ B) as (o1 & E & k & _ & H). apply Ok_eq in E. subst o1. destruct (empty_draws now' _ B') as (o1 & E & k' & _ & H'). apply Ok_eq in E. subst o1.
    subst o o'. unfold empty_obj in *. cbn [o_meta] in M. rewrite M. reflexivity.
  - destruct (audio_with now _ B) as (o1 & b & E & H). apply Ok_eq in E. subst o1. destruct (audio_with now' _ B') as (o1 & b' & E & H'). apply Ok_eq in E. subst o1.
    destruct H as (k & f & s & c & rt & _ & F & _ & _ & _ & E & L & OK & PF). destruct H' as (k' & f' & s' & c' & rt' & _ & F' & _ & _ & _ & E' & L' & OK' & PF').
    pose proof (proj1 (audio_format_attr now k f s c rt (Some b) None (proj1 (audio_format_drawn f F)))) as A. rewrite <- E in A.
    pose proof (proj1 (audio_format_attr now' k' f' s' c' rt' (Some b') None (proj1 (audio_format_drawn f' F')))) as A'. rewrite <- E' in A'.
    rewrite E, E' in M. apply one_meta in M. rewrite M in E'.
    pose proof (proj1 (audio_format_attr now k f s c rt (Some b') None (proj1 (audio_format_drawn f F)))) as A2. rewrite <- E', A' in A2. apply Ok_eq in A2. assert (f' = f) by congruence. subst f'. clear A2.
    assert (TY : getattr o $"grain_type" = Ok (PStr $"audio") /\ getattr o' $"grain_type" = Ok (PStr $"audio")).
    { rewrite E, E'. split; apply (kw_own KAudio); discriminate. }
    destruct TY as [T1 T2]. pose proof (st_audio _ _ _ _ _ (ga_type _ _ _ _ R _ _ T1 T2 eq_refl) eq_refl) as [_ DF]. specialize (DF f A A').
    assert (G : get_data o = Ok (Some b) /\ get_data o' = Ok (Some b')) by (rewrite E, E'; split; reflexivity). destruct G as [G1 G2].
    apply (same_data psnr true _ opts o o' b b' N W G1 G2) in DF.
    assert (b = b'); [|congruence]. apply (plain_payloads f); trivial.
    + unfold audio_kind. destruct (member [4; 5; 6] f); [right; discriminate|]. destruct (member [24; 25; 26] f) eqn:M4; [left; rewrite L; apply float_size, M4|right]. destruct (member [44; 45; 46] f); discriminate.
    + unfold audio_kind. destruct (member [4; 5; 6] f); [right; discriminate|]. destruct (member [24; 25; 26] f) eqn:M4; [right; discriminate|]. destruct (member [44; 45; 46] f) eqn:M8; [left; rewrite L; apply double_size, M8|right; discriminate].
    + unfold audio_kind. destruct (member [4; 5; 6] f) eqn:M3; [|destruct (member [24; 25; 26] f); [discriminate|]; destruct (member [44; 45; 46] f); discriminate].
      intros _. apply P. exists f. split; [exact A|]. apply sampled_in, M3.
  - destruct (coded_audio_with now _ B) as (o1 & E & H). apply Ok_eq in E. subst o1. destruct (coded_audio_with now' _ B') as (o1 & E & H'). apply Ok_eq in E. subst o1.
    destruct H as (k & f & s & c & rt & _ & _ & _ & _ & _ & E). destruct H' as (k' & f' & s' & c' & rt' & _ & _ & _ & _ & _ & E'). rewrite E, E' in M. apply one_meta in M. congruence.
  - destruct (event_draws now _ B) as (o1 & E & H). apply Ok_eq in E. subst o1. destruct (event_draws now' _ B') as (o1 & E & H'). apply Ok_eq in E. subst o1.
    destruct H as (k & kd & tp & xs & _ & _ & _ & _ & E). destruct H' as (k' & kd' & tp' & xs' & _ & _ & _ & _ & E'). rewrite E, E' in M. apply one_meta in M. congruence.
  - destruct (video_with now _ B) as (o1 & b & E & H). apply Ok_eq in E. subst o1. destruct (video_with now' _ B') as (o1 & b' & E & H'). apply Ok_eq in E. subst o1.
    destruct H as (k & f & l & _ & F & _ & E & _). destruct H' as (k' & f' & l' & _ & F' & _ & E' & _). rewrite E, E' in M. apply one_meta in M. rewrite M in E'.
    pose proof (video_format_attr now k f 16 9 l (PList (map comp_dict (components_for_format f 16 9))) (Some b) None (proj1 (video_format_drawn f F))) as A. rewrite <- E in A.
    pose proof (video_format_attr now k f 16 9 l (PList (map comp_dict (components_for_format f 16 9))) (Some b') None (proj1 (video_format_drawn f F))) as A'. rewrite <- E' in A'.
    assert (TY : getattr o $"grain_type" = Ok (PStr $"video") /\ getattr o' $"grain_type" = Ok (PStr $"video")).
    { rewrite E, E'. split; apply (kw_own KVideo); discriminate. }
    destruct TY as [T1 T2]. pose proof (st_video _ _ _ _ _ (ga_type _ _ _ _ R _ _ T1 T2 eq_refl) eq_refl) as [_ DF]. specialize (DF f A A').
    assert (G : get_data o = Ok (Some b) /\ get_data o' = Ok (Some b')) by (rewrite E, E'; split; reflexivity). destruct G as [G1 G2].
    apply (same_data psnr true _ opts o o' b b' N W G1 G2) in DF. cbn [payload_agrees] in DF. congruence.
  - destruct (coded_video_with now _ B) as (o1 & E & H). apply Ok_eq in E. subst o1. destruct (coded_video_with now' _ B') as (o1 & E & H'). apply Ok_eq in E. subst o1.
    destruct H as (k & f & l & key & tm & u & _ & _ & _ & _ & _ & E). destruct H' as (k' & f' & l' & key' & tm' & u' & _ & _ & _ & _ & _ & E'). rewrite E, E' in M. apply one_meta in M. congruence.
Qed.
Theorem distinct psnr opts t now now' o o' r : In t grain_types -> can_be_with_data t now (Ok o) -> can_be_with_data t now' (Ok o') -> o_meta o = o_meta o' ->
  no_matchers opts -> ~ waived opts (path $"data") -> ~ packed24 o -> compare_grain psnr opts o o' = Ok r -> r_equal r = true <-> o = o'.
Proof.
  intros T B B' M N W P C. split; [apply (drawn_differ psnr opts t now now' o o' r); assumption|]. intros <-.
  destruct (drawn_with t now _ T B) as (o1 & E & _ & D). apply Ok_eq in E. subst o1.
  destruct (drawn_comparable psnr [] 8 now o D plain_nil) as [(_ & _ & MO & S & NN & _) _]; [split; [auto|intros X; discriminate X]|]. exact (grain_refl psnr opts o r N MO S NN C).
Qed.

(** ** Every payload can be drawn. *)
Lemma audio_set now r0 : can_be $"audio" [] now r0 -> exists k f s c rt o, sampled audio_sample f /\ r0 = Ok o /\ data_strategy o None = Ok (audio_data f (size_for_audio_format f c s)) /\
  forall b, with_payload now o b = Ok (kw_obj KAudio now k (audio_part_kw f s c rt) (Some b) None).
Proof.
  intros D. destruct (audio_draws now r0 D) as (o & -> & k & f & s & c & rt & K & F & S & C & R & E & N). exists k, f, s, c, rt, o. split; [exact F|]. split; [reflexivity|].
  assert (M : member audio_formats f = true) by apply (audio_format_drawn f F). split.
  - subst o. unfold data_strategy. set (d := Some (zeros (Z.to_nat (size_for_audio_format f c s)))). rewrite (kw_own KAudio now k (audio_part_kw f s c rt) d None ltac:(discriminate)). cbn [rbind].
    change (type_is (PStr (own_type (o_class (kw_obj KAudio now k (audio_part_kw f s c rt) d None)))) $"audio") with true. cbv iota.
    rewrite (proj2 (audio_format_attr now k f s c rt d None M)), (audio_expected now k f s c rt d None M). cbn [rbind to_int]. unfold audio_data.
    destruct (member [24; 25; 26] f); [reflexivity|]. destruct (member [44; 45; 46] f); reflexivity.
  - intros b. assert (MD : made o) by (subst o; exact (made_audio now k f s c rt ANone _ (audio_shape now k f s c rt N))).
    rewrite (payload_set now o b (zeros (Z.to_nat (size_for_audio_format f c s))) MD); subst o; [reflexivity|apply kw_own; discriminate|discriminate|reflexivity|reflexivity].
Qed.
Lemma video_set now r0 : can_be $"video" (template_args $"video") now r0 -> exists k f l o, r0 = Ok o /\ data_strategy o None = Ok (DBinary (size_for_format f 16 9)) /\
  forall b, with_payload now o b = Ok (kw_obj KVideo now k (video_part_kw f 16 9 l (PList (map comp_dict (components_for_format f 16 9)))) (Some b) None).
Proof.
  intros D. destruct (video_template_draws now r0 D) as (o & -> & k & f & l & K & F & L & E). assert (SZ : drawn_size 16 9) by (right; reflexivity). exists k, f, l, o. split; [reflexivity|].
  pose proof (video_size_nonneg f 16 9 F SZ) as N. set (part := video_part_kw f 16 9 l (PList (map comp_dict (components_for_format f 16 9)))) in *. split.
  - subst o. unfold data_strategy. set (d := Some (zeros (Z.to_nat (size_for_format f 16 9)))). rewrite (kw_own KVideo now k part d None ltac:(discriminate)). cbn [rbind].
    change (type_is (PStr (own_type (o_class (kw_obj KVideo now k part d None)))) $"audio") with false. cbv iota. unfold d.
    rewrite (length_attr KVideo now k part) by (try discriminate; intros [X|X]; discriminate X). cbn [rbind to_int]. rewrite zlen_zeros, Z2Nat.id by exact N. reflexivity.
  - intros b. assert (MD : made o) by (subst o; exact (made_video now k f 16 9 l ANone _ (video_shape now k f 16 9 l N))).
    rewrite (payload_set now o b (zeros (Z.to_nat (size_for_format f 16 9))) MD); subst o; [reflexivity|apply kw_own; discriminate|discriminate|reflexivity|reflexivity].
Qed.
Theorem any_payload t now o b x : t = $"audio" \/ t = $"video" -> can_be_with_data t now (Ok o) -> o_data o = Some x -> bytes_ok b -> zlen b = zlen x -> ~ float_samples o ->
  can_be_with_data t now (Ok (mkO (o_class o) (o_meta o) (Some b) None)).
Proof.
  intros [->| ->] (r0 & D & H) X B L NF.
  - change (template_args $"audio") with (@nil (str * sarg)) in D. destruct (audio_set now r0 D) as (k & f & s & c & rt & o0 & F & -> & DS & P). exists (Ok o0). split; [exact D|]. rewrite DS in *.
    destruct H as (b0 & CB & H). rewrite P in H. apply Ok_eq in H. subst o. cbn [kw_obj o_data] in X. injection X as <-. exists b. split; [|rewrite P; reflexivity].
    assert (A : audio_data f (size_for_audio_format f c s) = DBinary (size_for_audio_format f c s)).
    { unfold audio_data. destruct (member [24; 25; 26] f) eqn:M1.
      - destruct NF. exists f. split; [apply (audio_format_attr now k f s c rt (Some b0) None), (audio_format_drawn f F)|]. left. unfold audio_kind. apply sampled_in in M1. cbn [In] in M1. repeat destruct M1 as [<-|M1]; try reflexivity. destruct M1.
      - destruct (member [44; 45; 46] f) eqn:M2; [|reflexivity]. destruct NF. exists f. split; [apply (audio_format_attr now k f s c rt (Some b0) None), (audio_format_drawn f F)|]. right. unfold audio_kind. apply sampled_in in M2. cbn [In] in M2. repeat destruct M2 as [<-|M2]; try reflexivity. destruct M2. }
    rewrite A in *. destruct CB as [CL _]. split; [lia|]. exact (between_byte b B).
  - destruct (video_set now r0 D) as (k & f & l & o0 & -> & DS & P). exists (Ok o0). split; [exact D|]. rewrite DS in *. destruct H as (b0 & CB & H). rewrite P in H. apply Ok_eq in H. subst o.
    cbn [kw_obj o_data] in X. injection X as <-. exists b. split; [|rewrite P; reflexivity]. destruct CB as [CL _]. split; [lia|]. exact (between_byte b B).
Qed.
Theorem coded_empty t now o : t = $"coded_audio" \/ t = $"coded_video" -> can_be_with_data t now (Ok o) -> get_data o = Ok (Some []).
Proof.
  intros [->| ->] B.
  - destruct (coded_audio_with now _ B) as (o1 & E & k & f & s & c & rt & _ & _ & _ & _ & _ & H). apply Ok_eq in E. subst o1. subst o. reflexivity.
  - destruct (coded_video_with now _ B) as (o1 & E & k & f & l & key & tm & u & _ & _ & _ & _ & _ & H). apply Ok_eq in E. subst o1. subst o. reflexivity.
Qed.
