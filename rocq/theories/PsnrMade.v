(** The grains the constructors make can be measured; what cannot be. *)
From Coq Require Import String Lia ZifyBool ZifyNat.
From Verif Require Import Base BaseProofs GsfPrim CogEnums VideoLayout LayoutSpec PatternSpec JsonProofs PyValue GrainObj BuildSpec BuildMain BuildKw GrainCopy GrainCopySpec GrainCopyMade GrainGsf
  NpView NpSpec NpAudio NpAudioSpec NpAudioProofs NpAudioMain Psnr PsnrSpec PsnrProofs PsnrMain PsnrAudio.
Local Open Scope list_scope.

Lemma kind_member f k : In (f, k) kinds -> member frame_formats f = true.
Proof.
  intros I. assert (X : forallb (fun fk => member frame_formats (fst fk)) kinds = true) by (vm_compute; reflexivity). rewrite forallb_forall in X. exact (X _ I).
Qed.
Theorem made_video now k f kd w h layout d o : In (f, kd) kinds -> kw_video now k f w h layout (ABytes d) = Ok o -> zlen d = size_for_format f w h -> video_of o f w h d.
Proof.
  intros I H L. pose proof (video_kw now k f w h layout (ABytes d) o H) as (CA & (D & _) & W & HH & F & _ & C). constructor; try assumption.
  - clear - H. unfold kw_video in H. change (PDict [($"format", PInt f); ($"width", PInt w); ($"height", PInt h); ($"layout", PInt layout); ($"extension", PInt 0); ($"components", PList [])])
      with (video_part_kw f w h layout (PList [])) in H. rewrite video_init_kw in H. apply rbind_ok in H as (a' & _ & H). apply Ok_eq in H. set (cs := map comp_dict (components_for_format f w h)) in *. clearbody cs.
    destruct (kw_shape KVideo now k (video_part_kw f w h layout (PList cs)) a') as (x & y & S). cbn [type_name part_name] in S. rewrite S in H. subst o. reflexivity.
  - exact (kw_video_faithful now k f w h layout (ABytes d) o H).
  - exact (ca_type _ _ _ _ CA).
  - exact (F (kind_member f kd I)).
Qed.
Theorem made_audio now k f s c rate d o : member audio_formats f = true -> kw_audio now k f s c rate (ABytes d) = Ok o -> zlen d = size_for_audio_format f c s -> bytes_ok d -> audio_of o f s c d.
Proof.
  intros I H L B. pose proof (audio_kw now k f s c rate (ABytes d) o H) as (CA & (D & _) & S & C & _ & F).
  assert (X : o_class o = KAudio /\ getattr o $"format" = getattr o $"cog_audio_format").
  { clear - H. unfold kw_audio in H. change (PDict [($"format", PInt f); ($"samples", PInt s); ($"channels", PInt c); ($"sample_rate", PInt rate)]) with (audio_part_kw f s c rate) in H.
    rewrite audio_init_kw in H. apply rbind_ok in H as (a' & _ & H). apply Ok_eq in H.
    destruct (kw_shape KAudio now k (audio_part_kw f s c rate) a') as (x & y & S). cbn [type_name part_name] in S. rewrite S in H. subst o. split; reflexivity. }
  destruct X as [XC XF]. constructor; try assumption.
  - exact (kw_audio_faithful now k f s c rate (ABytes d) o H).
  - exact (ca_type _ _ _ _ CA).
  - rewrite XF. exact (F I).
Qed.

(** ** Refusals. *)
Theorem video_refused now rwa rwb max a b f f' w h w' h' d d' k k' : video_of a f w h d -> video_of b f' w' h' d' -> In (f, k) kinds -> In (f', k') kinds -> w <> w' \/ h <> h' ->
  compute_psnr now rwa rwb max a b = (a, b, Err EAttr).
Proof.
  intros [_ _ TA _ WA HA _ _ _] [_ _ TB _ WB HB _ _ _] _ _ N. unfold compute_psnr. rewrite TA, TB. cbn [rbind].
  replace (py_eq (PStr $"video") (PStr $"video")) with true by reflexivity. cbn [negb]. replace (type_is (PStr $"video") $"video") with true by reflexivity.
  unfold video_psnr. rewrite WA, WB, HA, HB. cbn [rbind]. assert (X : forall n m, py_eq (PInt n) (PInt m) = (n =? m)) by (intros n m; cbn [py_eq as_q]; rewrite andb_true_r; reflexivity). rewrite !X.
  destruct (w =? w') eqn:E; cbn [negb]; [|reflexivity]. destruct (h =? h') eqn:E'; cbn [negb]; [lia|reflexivity].
Qed.
Theorem audio_refused now rwa rwb max a b f f' s c s' c' d d' : audio_of a f s c d -> audio_of b f' s' c' d' ->
  (c <> c' \/ s <> s' -> compute_psnr now rwa rwb max a b = (a, b, Err EAttr)) /\
  (c = c' -> s = s' -> f <> f' -> compute_psnr now rwa rwb max a b = (a, b, Err EUnsupported)).
Proof.
  intros [_ _ TA FA SA HA _ _ _] [_ _ TB FB SB HB _ _ _]. unfold compute_psnr. rewrite TA, TB. cbn [rbind].
  replace (py_eq (PStr $"audio") (PStr $"audio")) with true by reflexivity. cbn [negb]. replace (type_is (PStr $"audio") $"video") with false by reflexivity. replace (type_is (PStr $"audio") $"audio") with true by reflexivity.
  unfold audio_psnr. rewrite HA, HB, SA, SB. cbn [rbind]. assert (X : forall n m, py_eq (PInt n) (PInt m) = (n =? m)) by (intros n m; cbn [py_eq as_q]; rewrite andb_true_r; reflexivity). rewrite !X.
  split.
  - intros N. destruct (c =? c') eqn:E; cbn [negb]; [|reflexivity]. destruct (s =? s') eqn:E'; cbn [negb]; [lia|reflexivity].
  - intros -> -> N. rewrite !Z.eqb_refl. cbn [negb]. unfold attr. rewrite FA, FB. cbn [rbind to_int]. destruct (f =? f') eqn:E; [lia|]. reflexivity.
Qed.
(** 24 bits in four bytes: a payload of bytes cannot be measured. If only the second is, the first is changed nevertheless. *)
Theorem low_refused now rwa rwb max a b s c d d' : audio_of a 4 s c d -> audio_of b 4 s c d' -> 0 <= s -> 0 <= c ->
  (rwa = false -> compute_psnr now rwa rwb max a b = (a, b, Err EValue)) /\
  (rwa = true -> rwb = false -> compute_psnr now rwa rwb max a b = (mkO KAudio (o_meta a) (Some (shift_up d)) (o_wait a), b, Err EValue)).
Proof.
  intros VA VB S C. rewrite (audio_tests now rwa rwb max a b 4 s c d d' VA VB eq_refl). rewrite (numpy_sound now rwa a 4 s c d VA), (numpy_sound now rwb b 4 s c d' VB).
  destruct (low_arrays s c d S C (ao_length _ _ _ _ _ VA) (ao_bytes _ _ _ _ _ VA)) as (E & _). destruct (low_arrays s c d' S C (ao_length _ _ _ _ _ VB) (ao_bytes _ _ _ _ _ VB)) as (E' & _).
  split.
  - intros ->. rewrite E. reflexivity.
  - intros -> ->. rewrite E'. destruct (whole_new true 4 Planes 4 3 s c d) as (g & Q & _ & _ & _ & _ & _ & D & _); [cbn [whole_table In]; tauto|reflexivity|exact S|exact C|exact (ao_length _ _ _ _ _ VA)|exact (ao_bytes _ _ _ _ _ VA)|].
    rewrite Q. cbv iota beta. rewrite (D eq_refl). reflexivity.
Qed.

(** ** Infinite exactly for the same sound. *)
Lemma heard_zero ar size low s c d d' ch : sum s (fun i => (heard ar size low s c d ch i - heard ar size low s c d' ch i) * (heard ar size low s c d ch i - heard ar size low s c d' ch i)) = 0 <->
  forall i, 0 <= i < s -> heard ar size low s c d ch i = heard ar size low s c d' ch i.
Proof.
  rewrite sum_zero by (intros i _; apply Z.square_nonneg). split; intros H i I; specialize (H i I).
  - apply Z.mul_eq_0 in H. lia.
  - rewrite H, Z.sub_diag. reflexivity.
Qed.
Theorem audio_same now rwa rwb a b f ar size low s c d d' : audio_of a f s c d -> audio_of b f s c d' -> In (f, (ar, size, low)) whole_table -> f <> 4 \/ rwa = true /\ rwb = true ->
  0 < s -> 0 <= c ->
  exists vs, snd (compute_psnr now rwa rwb None a b) = Ok vs /\ zlen vs = c /\
    (Forall (eq PvInf) vs <-> forall ch i, 0 <= ch < c -> 0 <= i < s -> heard ar size low s c d ch i = heard ar size low s c d' ch i).
Proof.
  intros VA VB I RW S C. destruct (audio_ratio now rwa rwb None a b f ar size low s c d d' VA VB I RW ltac:(lia) C ltac:(discriminate)) as (a' & b' & vs & E & F & _). exists vs. rewrite E. split; [reflexivity|].
  assert (F' : Forall2 (fun ch v => v = PvInf <-> forall i, 0 <= i < s -> heard ar size low s c d ch i = heard ar size low s c d' ch i) (between 0 c) vs).
  { revert F. apply forall2_weaken. cbv beta zeta. intros ch v [_ Q]. specialize (Q eq_refl). rewrite <- heard_zero. assert (S0 : s <> 0) by lia. exact (psnr_inf _ _ _ _ S0 Q). }
  split.
  - assert (L : zlen vs = zlen (between 0 c)) by (unfold zlen; f_equal; clear - F; induction F; cbn [List.length]; congruence). rewrite L. exact (between_len c C).
  - transitivity (forall ch, In ch (between 0 c) -> forall i, 0 <= i < s -> heard ar size low s c d ch i = heard ar size low s c d' ch i).
    + clear - F'. induction F' as [|ch v l vs Q F IH].
      * split; [intros _ ch []|constructor].
      * split.
        -- intros G ch' [<-|M]; [apply Q; inversion G; subst; reflexivity|]. apply IH; [inversion G; assumption|exact M].
        -- intros G. constructor; [symmetry; apply Q, G; left; reflexivity|]. apply IH. intros m M. apply G. right. exact M.
    + split; [intros G ch i CH IH; apply (G ch); [apply in_between; exact CH|exact IH]|intros G ch CH; apply in_between in CH; intros i IH; exact (G ch i CH IH)].
Qed.
