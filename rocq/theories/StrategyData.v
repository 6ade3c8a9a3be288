From Coq Require Import String Lia ZifyBool ZifyNat.
From Verif Require Import Base BaseProofs PyValue PyValueProofs Json JsonProofs CogEnums VideoLayout GrainObj Event EventSpec BuildSpec BuildProofs BuildMain BuildKw
  GrainSet GrainSetSpec GrainCopy GrainCopySpec GrainCopyProofs GrainCopyMade GrainCopyApart Compare CompareSpec GrainGsf GrainGsfSpec PyValue GrainObj Tools ToolsMain Strategies StrategySpec StrategyProofs StrategyArgs StrategyDraw.
Local Open Scope list_scope.
Ltac Zify.zify_post_hook ::= Z.div_mod_to_equations.

(** ** Payloads. *)
Lemma payload_set now o b x : made o -> of_own_type o -> o_class o <> KEvent -> o_data o = Some x -> o_wait o = None -> with_payload now o b = Ok (mkO (o_class o) (o_meta o) (Some b) None).
Proof.
  intros M T N D W. pose proof (made_faithful o M (own_class o T)) as F. destruct (copy_same now o F N) as [E S]. unfold with_payload. rewrite E, (S x D W). cbn [rbind].
  unfold set_data. destruct (o_class o); try reflexivity. destruct (N eq_refl).
Qed.
Lemma byte_between b : forallb (between 0 255) b = true -> bytes_ok b.
Proof. intros H. rewrite forallb_forall in H. apply Forall_forall. intros x I. specialize (H x I). unfold between in H. unfold byte_ok. lia. Qed.
Lemma between_byte b : bytes_ok b -> forallb (between 0 255) b = true.
Proof. intros H. apply forallb_forall. intros x I. unfold bytes_ok in H. rewrite Forall_forall in H. specialize (H x I). unfold between. unfold byte_ok in H. lia. Qed.
Lemma plain_single_len x : plain_single x = true -> zlen x = 4 /\ bytes_ok x /\ ~ single_nan x /\ x <> [0; 0; 0; 128].
Proof.
  destruct x as [|a [|b [|c [|d [|? ?]]]]]; try discriminate. cbn [plain_single]. intros H. apply andb_true_iff in H as [H1 H2]. split; [reflexivity|]. apply byte_between in H1.
  split; [exact H1|]. inversion H1 as [|? ? _ H3]; subst. inversion H3 as [|? ? _ H4]; subst. inversion H4 as [|? ? C H5]; subst. inversion H5 as [|? ? D _]; subst. unfold byte_ok in *. split.
  - intros (a' & b' & c' & d' & E & M & G & _). injection E as <- <- <- <-. lia.
  - intros E. injection E as -> -> -> ->. cbn in H2. lia.
Qed.
Lemma plain_double_len x : plain_double x = true -> zlen x = 8 /\ bytes_ok x /\ ~ double_nan x /\ x <> [0; 0; 0; 0; 0; 0; 0; 128].
Proof.
  destruct x as [|a [|b [|c [|d [|e [|f [|g [|h [|? ?]]]]]]]]]; try discriminate. cbn [plain_double]. intros H. apply andb_true_iff in H as [H1 H2]. split; [reflexivity|]. apply byte_between in H1.
  split; [exact H1|]. assert (G : byte_ok g /\ byte_ok h) by (unfold bytes_ok in H1; rewrite Forall_forall in H1; split; apply H1; cbn [In]; auto 10). destruct G as [G K]. unfold byte_ok in *. split.
  - intros (a' & b' & c' & d' & e' & f' & g' & h' & E & M & L & _). injection E as <- <- <- <- <- <- <- <-. lia.
  - intros E. injection E as -> -> -> -> -> -> -> ->. cbn in H2. lia.
Qed.
(** The pieces of a concatenation. *)
Lemma concat_len w l : Forall (fun x : bytes => zlen x = w) l -> zlen (concat l) = w * zlen l.
Proof.
  induction 1 as [|x l H _ IH]; [cbn; lia|]. cbn [concat]. rewrite zlen_app, H, IH. unfold zlen. cbn [List.length]. lia.
Qed.
Lemma concat_sample w l i : 0 < w -> Forall (fun x : bytes => zlen x = w) l -> 0 <= i < zlen l -> In (sample w i (concat l)) l.
Proof.
  intros W F. revert i. induction F as [|x l H _ IH]; intros i I; [unfold zlen in I; cbn in I; lia|]. cbn [concat]. unfold sample. destruct (Z.eq_dec i 0) as [->|N].
  - left. rewrite Z.mul_0_r, zskip_le0 by lia. subst w. symmetry. apply zfirst_app.
  - right. assert (i >= 1) by lia. rewrite zskip_app_ge by nia. replace (w * i - zlen x) with (w * (i - 1)) by nia. apply (IH (i - 1)). rewrite zlen_cons in I. lia.
Qed.
Lemma concat_bytes l : Forall bytes_ok l -> bytes_ok (concat l).
Proof. induction 1 as [|x l H _ IH]; [constructor|]. cbn [concat]. apply bytes_ok_app. split; assumption. Qed.
Lemma singles_drawn n b : can_draw_data (DFloats 32 n) b -> zlen b = 4 * n /\ bytes_ok b /\ forall i, 0 <= i < zlen b / 4 -> ~ single_nan (sample 4 i b) /\ sample 4 i b <> [0; 0; 0; 128].
Proof.
  intros (l & <- & -> & F). cbv beta in F. change (32 =? 32) with true in F. cbv iota in F.
  assert (W : Forall (fun x => zlen x = 4) l) by exact (Forall_impl _ (fun x H => proj1 (plain_single_len x H)) F).
  assert (B : Forall bytes_ok l) by exact (Forall_impl _ (fun x H => proj1 (proj2 (plain_single_len x H))) F).
  pose proof (concat_len 4 l W) as L. split; [exact L|]. split; [exact (concat_bytes l B)|]. intros i I. rewrite L in I. rewrite Forall_forall in F.
  apply plain_single_len, F, concat_sample; [lia|exact W|lia].
Qed.
Lemma doubles_drawn n b : can_draw_data (DFloats 64 n) b -> zlen b = 8 * n /\ bytes_ok b /\ forall i, 0 <= i < zlen b / 8 -> ~ double_nan (sample 8 i b) /\ sample 8 i b <> [0; 0; 0; 0; 0; 0; 0; 128].
Proof.
  intros (l & <- & -> & F). cbv beta in F. change (64 =? 32) with false in F. cbv iota in F.
  assert (W : Forall (fun x => zlen x = 8) l) by exact (Forall_impl _ (fun x H => proj1 (plain_double_len x H)) F).
  assert (B : Forall bytes_ok l) by exact (Forall_impl _ (fun x H => proj1 (proj2 (plain_double_len x H))) F).
  pose proof (concat_len 8 l W) as L. split; [exact L|]. split; [exact (concat_bytes l B)|]. intros i I. rewrite L in I. rewrite Forall_forall in F.
  apply plain_double_len, F, concat_sample; [lia|exact W|lia].
Qed.

(** *** Audio. *)
Definition audio_data (f n : Z) : dstrat := if member [0x18; 0x19; 0x1a] f then DFloats 32 (n / 4) else if member [0x2c; 0x2d; 0x2e] f then DFloats 64 (n / 8) else DBinary n.
Lemma float_size f c s : member [0x18; 0x19; 0x1a] f = true -> size_for_audio_format f c s mod 4 = 0.
Proof.
  intros H. apply sampled_in in H. cbn [In] in H. repeat destruct H as [<-|H]; [..|destruct H].
  - change (size_for_audio_format 24 c s) with (c * s * 4). apply Z.mod_mul. lia.
  - change (size_for_audio_format 25 c s) with ((c + 1) / 2 * 2 * s * 4). apply Z.mod_mul. lia.
  - change (size_for_audio_format 26 c s) with (c * s * 4). apply Z.mod_mul. lia.
Qed.
Lemma double_size f c s : member [0x2c; 0x2d; 0x2e] f = true -> size_for_audio_format f c s mod 8 = 0.
Proof.
  intros H. apply sampled_in in H. cbn [In] in H. repeat destruct H as [<-|H]; [..|destruct H].
  - change (size_for_audio_format 44 c s) with (c * s * 8). apply Z.mod_mul. lia.
  - change (size_for_audio_format 45 c s) with ((c + 1) / 2 * 2 * s * 8). apply Z.mod_mul. lia.
  - change (size_for_audio_format 46 c s) with (c * s * 8). apply Z.mod_mul. lia.
Qed.
(** No NaN, no negative zero. *)
Definition plain_floats (f : Z) (b : bytes) : Prop :=
  (audio_kind f = Singles -> forall i, 0 <= i < zlen b / 4 -> ~ single_nan (sample 4 i b) /\ sample 4 i b <> [0; 0; 0; 128]) /\
  (audio_kind f = Doubles -> forall i, 0 <= i < zlen b / 8 -> ~ double_nan (sample 8 i b) /\ sample 8 i b <> [0; 0; 0; 0; 0; 0; 0; 128]).
Lemma audio_data_drawn f c s b : can_draw_data (audio_data f (size_for_audio_format f c s)) b -> zlen b = size_for_audio_format f c s /\ bytes_ok b /\ plain_floats f b.
Proof.
  unfold audio_data, plain_floats, audio_kind. destruct (member [24; 25; 26] f) eqn:E1.
  - intros H. apply singles_drawn in H as (L & B & P). pose proof (float_size f c s E1) as M. set (n := size_for_audio_format f c s) in *. split; [lia|]. split; [exact B|].
    split; [intros _; exact P|]. intros X. destruct (member [4; 5; 6] f); discriminate X.
  - destruct (member [44; 45; 46] f) eqn:E2.
    + intros H. apply doubles_drawn in H as (L & B & P). pose proof (double_size f c s E2) as M. set (n := size_for_audio_format f c s) in *. split; [lia|]. split; [exact B|].
      split; [intros X; destruct (member [4; 5; 6] f); discriminate X|intros _; exact P].
    + intros [L B]. split; [exact L|]. split; [exact (byte_between b B)|]. destruct (member [4; 5; 6] f); split; intros X; discriminate X.
Qed.
Definition is_audio_with (now : Z) (b : bytes) (o : gobj) : Prop :=
  exists k f s c r, drawn_kw (25, 1) (1, 25) k /\ sampled audio_sample f /\ 1 <= s <= 16 /\ 1 <= c <= 16 /\ (r = 48000 \/ r = 44100) /\
    o = kw_obj KAudio now k (audio_part_kw f s c r) (Some b) None /\ zlen b = size_for_audio_format f c s /\ bytes_ok b /\ plain_floats f b.
Lemma kw_own c now k part d w : c <> KGrain -> of_own_type (kw_obj c now k part d w).
Proof. intros N. destruct (kw_common c now k part d w N) as [T _ _ _ _ _ _ _]. unfold of_own_type. cbn [kw_obj o_class]. rewrite T. destruct c; try reflexivity. destruct (N eq_refl). Qed.
Lemma audio_with now r : can_be_with_data $"audio" now r -> exists o b, r = Ok o /\ is_audio_with now b o.
Proof.
  intros (r0 & D & H). change (template_args $"audio") with (@nil (str * sarg)) in D. destruct (audio_draws now r0 D) as (o & -> & k & f & s & c & rt & K & F & S & C & R & E & N).
  assert (M : member audio_formats f = true) by apply (audio_format_drawn f F).
  assert (DS : data_strategy o None = Ok (audio_data f (size_for_audio_format f c s))).
  { subst o. unfold data_strategy. set (d := Some (zeros (Z.to_nat (size_for_audio_format f c s)))). rewrite (kw_own KAudio now k (audio_part_kw f s c rt) d None ltac:(discriminate)). cbn [rbind].
    change (type_is (PStr (own_type (o_class (kw_obj KAudio now k (audio_part_kw f s c rt) d None)))) $"audio") with true. cbv iota.
    rewrite (proj2 (audio_format_attr now k f s c rt d None M)), (audio_expected now k f s c rt d None M). cbn [rbind to_int]. unfold audio_data.
    destruct (member [24; 25; 26] f); [reflexivity|]. destruct (member [44; 45; 46] f); reflexivity. }
  rewrite DS in H. destruct H as (b & B & ->). apply audio_data_drawn in B as (L & B & P).
  assert (MD : made o) by (subst o; exact (made_audio now k f s c rt ANone _ (audio_shape now k f s c rt N))).
  exists (kw_obj KAudio now k (audio_part_kw f s c rt) (Some b) None), b. split.
  - rewrite (payload_set now o b (zeros (Z.to_nat (size_for_audio_format f c s))) MD); subst o; [reflexivity|apply kw_own; discriminate|discriminate|reflexivity|reflexivity].
  - exists k, f, s, c, rt. repeat (split; [assumption|]). split; [reflexivity|]. auto.
Qed.

(** *** Video. *)
Definition is_video_with (now : Z) (b : bytes) (o : gobj) : Prop :=
  exists k f l, drawn_kw (25, 1) (1, 25) k /\ sampled video_sample f /\ sampled layout_sample l /\
    o = kw_obj KVideo now k (video_part_kw f 16 9 l (PList (map comp_dict (components_for_format f 16 9)))) (Some b) None /\ zlen b = size_for_format f 16 9 /\ bytes_ok b.
Lemma length_attr c now k part b : c <> KGrain -> c <> KEvent -> (c = KCodedVideo \/ c = KCodedAudio -> False) -> getattr (kw_obj c now k part (Some b) None) $"length" = Ok (PInt (zlen b)).
Proof. intros N1 N2 N3. destruct c; try (destruct N1; reflexivity); try (destruct N2; reflexivity); try (destruct N3; auto; fail); reflexivity. Qed.
Lemma video_with now r : can_be_with_data $"video" now r -> exists o b, r = Ok o /\ is_video_with now b o.
Proof.
  intros (r0 & D & H). destruct (video_template_draws now r0 D) as (o & -> & k & f & l & K & F & L & E). assert (SZ : drawn_size 16 9) by (right; reflexivity).
  pose proof (video_size_nonneg f 16 9 F SZ) as N. set (part := video_part_kw f 16 9 l (PList (map comp_dict (components_for_format f 16 9)))) in *.
  assert (DS : data_strategy o None = Ok (DBinary (size_for_format f 16 9))).
  { subst o. unfold data_strategy. set (d := Some (zeros (Z.to_nat (size_for_format f 16 9)))). rewrite (kw_own KVideo now k part d None ltac:(discriminate)). cbn [rbind].
    change (type_is (PStr (own_type (o_class (kw_obj KVideo now k part d None)))) $"audio") with false. cbv iota. unfold d.
    rewrite (length_attr KVideo now k part) by (try discriminate; intros [X|X]; discriminate X). cbn [rbind to_int]. rewrite zlen_zeros, Z2Nat.id by exact N. reflexivity. }
  rewrite DS in H. destruct H as (b & [LB B] & ->). apply byte_between in B.
  assert (MD : made o) by (subst o; exact (made_video now k f 16 9 l ANone _ (video_shape now k f 16 9 l N))).
  exists (kw_obj KVideo now k part (Some b) None), b. split.
  - rewrite (payload_set now o b (zeros (Z.to_nat (size_for_format f 16 9))) MD); subst o; [reflexivity|apply kw_own; discriminate|discriminate|reflexivity|reflexivity].
  - exists k, f, l. repeat (split; [assumption|]). split; [reflexivity|]. auto.
Qed.

(** *** Coded grains: the payload stays empty. *)
Lemma empty_binary b : can_draw_data (DBinary 0) b -> b = [].
Proof. intros [L _]. destruct b as [|x b]; [reflexivity|]. rewrite zlen_cons in L. pose proof (zlen_nonneg b). lia. Qed.
Lemma coded_audio_with now r : can_be_with_data $"coded_audio" now r -> exists o, r = Ok o /\ is_coded_audio now o.
Proof.
  intros (r0 & D & H). change (template_args $"coded_audio") with (@nil (str * sarg)) in D. destruct (coded_audio_draws now r0 D) as (o & -> & k & f & s & c & rt & K & F & S & C & R & E).
  assert (DS : data_strategy o None = Ok (DBinary 0)) by (subst o; destruct k as [? ? ? ? ? [? ?] [? ?]]; reflexivity).
  rewrite DS in H. destruct H as (b & B & ->). apply empty_binary in B. subst b.
  assert (MD : made o) by (subst o; exact (made_coded_audio now k f s c 0 0 rt None ANone _ (coded_audio_shape now k f s c 0 0 rt))).
  exists o. split; [|exists k, f, s, c, rt; auto 10]. rewrite (payload_set now o [] [] MD); subst o; [reflexivity|apply kw_own; discriminate|discriminate|reflexivity|reflexivity].
Qed.
Lemma coded_video_with now r : can_be_with_data $"coded_video" now r -> exists o, r = Ok o /\ is_coded_video 16 9 now o.
Proof.
  intros (r0 & D & H). destruct (coded_video_template_draws now r0 D) as (o & -> & k & f & l & key & tm & u & K & F & L & T & U & E).
  assert (DS : data_strategy o None = Ok (DBinary 0)) by (subst o; destruct k as [? ? ? ? ? [? ?] [? ?]]; destruct u; reflexivity).
  rewrite DS in H. destruct H as (b & B & ->). apply empty_binary in B. subst b.
  assert (MD : made o) by (subst o; exact (made_coded_video now k f 16 9 (Some 240) (Some 135) (Some key) (Some tm) None l u ANone _ (coded_video_shape now k f 16 9 240 135 (Some key) (Some tm) l u))).
  exists o. split; [|exists k, f, l, key, tm, u; auto 10]. rewrite (payload_set now o [] [] MD); subst o; [reflexivity|apply kw_own; discriminate|discriminate|reflexivity|reflexivity].
Qed.
