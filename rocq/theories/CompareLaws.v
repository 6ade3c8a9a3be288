From Coq Require Import String Lia ZifyBool ZifyNat.
From Verif Require Import Base BaseProofs PyValue PyValueProofs Json JsonProofs Utf8 Utf8Proofs CogEnums GrainObj Difflib DifflibProofs
  Compare CompareSpec CompareProofs CompareTree CompareMain CompareTotal CompareSym.
Local Open Scope list_scope.

Lemma stored_payload o : stored_ok o -> payload_ok o.
Proof.
  intros H x E. unfold get_data in E. destruct (o_class o); try (apply Ok_eq in E; apply H, E).
  apply rbind_ok in E as (b & Hb & E). apply Ok_eq in E. injection E as <-.
  unfold event_json in Hb. apply rbind_ok in Hb as (? & _ & Hb). apply rbind_ok in Hb as (? & _ & Hb). apply rbind_ok in Hb as (? & _ & Hb). apply rbind_ok in Hb as (? & _ & Hb).
  apply rbind_ok in Hb as (s & Hs & Hb). apply Ok_eq in Hb. subst b. apply utf8_enc_ok. apply dumps_ascii in Hs.
  apply (Forall_impl _ (P := ascii)); [|exact Hs]. clear. unfold ascii, scalar. intros c Hc. lia.
Qed.
Lemma stored_all l : Forall stored_ok l -> Forall payload_ok l.
Proof. intros H. apply (Forall_impl _ (P := stored_ok)); auto. intros o. apply stored_payload. Qed.

Theorem grain_agree psnr opts a b r : stored_ok a -> stored_ok b -> compare_grain psnr opts a b = Ok r -> r_equal r = true <-> grains_agree psnr opts a b.
Proof. intros A B. exact (compare_agree psnr None opts a b r (stored_payload a A) (stored_payload b B)). Qed.
Theorem grain_total psnr opts a b : (exists r, compare_grain psnr opts a b = Ok r) <-> can_compare psnr opts a b.
Proof. exact (compare_total psnr None opts a b). Qed.
Lemma can_more psnr opts opts' p a b : can_compare psnr (opts ++ opts') a b -> can_compare psnr (opts ++ OExclude p :: opts') a b.
Proof.
  assert (IN : forall o, In o (opts ++ opts') -> In o (opts ++ OExclude p :: opts')).
  { intros o. rewrite !in_app_iff. cbn [In]. tauto. }
  assert (PS : forall q m, In (OPsnr q m) (opts ++ OExclude p :: opts') -> In (OPsnr q m) (opts ++ opts')).
  { intros q m. rewrite !in_app_iff. cbn [In]. intros [H|[H|H]]; auto. discriminate H. }
  assert (D : forall w u, can_data psnr w u (opts ++ opts') a b -> can_data psnr w u (opts ++ OExclude p :: opts') a b).
  { intros w u [A B]. split.
    - intros W [m Hm]. destruct (A W) as [(q & Q & V)|Q]; [exists m; auto|left; exists q; auto|right; exact Q].
    - intros N. apply B. intros W m Hm. apply (N W m). auto. }
  intros [P T L Y]. constructor; auto. intros t u E1 E2 E3. destruct (Y t u E1 E2 E3) as [Y1 Y2 Y3 Y4 Y5 Y6].
  assert (FS : forall w name k, can_if_format psnr w name k (opts ++ opts') a b -> can_if_format psnr w name k (opts ++ OExclude p :: opts') a b).
  { intros w name k H f F1 F2. apply D; auto. }
  constructor; auto; intros X.
  - destruct (Y2 X); split; auto.
  - destruct (Y3 X); split; auto.
  - destruct (Y4 X); split; auto.
  - destruct (Y5 X); split; auto.
Qed.
Theorem exclusion psnr opts opts' p a b r : stored_ok a -> stored_ok b -> compare_grain psnr (opts ++ opts') a b = Ok r ->
  exists r', compare_grain psnr (opts ++ OExclude p :: opts') a b = Ok r' /\ (r_equal r = true -> r_equal r' = true).
Proof.
  intros A B H. destruct (proj2 (grain_total psnr (opts ++ OExclude p :: opts') a b)) as [r' H'].
  - apply can_more. apply (proj1 (grain_total psnr (opts ++ opts') a b)). exists r; exact H.
  - exists r'. split; [exact H'|]. exact (exclude_more psnr None opts opts' p a b r r' (stored_payload a A) (stored_payload b B) H H').
Qed.
Theorem grain_refl psnr opts a r : no_matchers opts -> meta_ok a -> stored_ok a -> no_nan a -> compare_grain psnr opts a a = Ok r -> r_equal r = true.
Proof. intros N M S. exact (compare_refl psnr None opts a r N M (stored_payload a S)). Qed.
Theorem grain_sym psnr opts a b r : no_matchers opts -> meta_ok a -> meta_ok b -> stored_ok a -> stored_ok b ->
  compare_grain psnr opts a b = Ok r -> exists r', compare_grain psnr opts b a = Ok r' /\ r_equal r' = r_equal r.
Proof. intros N Ma Mb A B. exact (compare_sym psnr None opts a b r N Ma Mb (stored_payload a A) (stored_payload b B)). Qed.

(** ** Payloads. *)
Lemma data_result c id opts attr x y r : bytes_ok x -> bytes_ok y -> ~ waived opts id -> data_equality c id opts attr (Some x) (Some y) = Ok r ->
  r_equal r = true <-> payload_agrees (kind_of c) x y.
Proof.
  intros X Y W H. unfold data_equality, unpack_opt in H. apply rbind_ok in H as (p & Hp & H). apply rbind_ok in Hp as (wx & Hx & Hp). apply Ok_eq in Hp. subst p.
  apply rbind_ok in H as (p & Hp & H). apply rbind_ok in Hp as (wy & Hy & Hp). apply Ok_eq in Hp. subst p. apply Ok_eq in H. subst r. cbn [r_equal].
  destruct (excluded_by opts id) eqn:E; [exfalso; apply W, excluded_waived, E|]. apply payload_equal; auto.
Qed.
Lemma data_total c id opts attr x y : (exists r, data_equality c id opts attr (Some x) (Some y) = Ok r) <-> zlen x mod unit_of c = 0 /\ zlen y mod unit_of c = 0.
Proof.
  rewrite <- !unpack_ok. unfold data_equality, unpack_opt. split.
  - intros [r H]. apply rbind_ok in H as (p & Hp & H). apply rbind_ok in Hp as (wx & Hx & _).
    apply rbind_ok in H as (q & Hq & _). apply rbind_ok in Hq as (wy & Hy & _). eauto.
  - intros [[wx ->] [wy ->]]. cbn [rbind]. eexists; reflexivity.
Qed.
Theorem audio_payload f id opts attr x y r : bytes_ok x -> bytes_ok y -> ~ waived opts id ->
  data_equality (code_for_audio f) id opts attr (Some x) (Some y) = Ok r -> r_equal r = true <-> payload_agrees (audio_kind f) x y.
Proof. rewrite <- audio_codes. exact (data_result _ _ _ _ _ _ _). Qed.
Theorem video_payload f id opts attr x y r : bytes_ok x -> bytes_ok y -> ~ waived opts id ->
  data_equality (code_for_video f) id opts attr (Some x) (Some y) = Ok r -> r_equal r = true <-> x = y.
Proof. intros X Y W H. rewrite (data_result _ _ _ _ _ _ _ X Y W H), video_codes. reflexivity. Qed.
Theorem audio_whole f id opts attr x y : (exists r, data_equality (code_for_audio f) id opts attr (Some x) (Some y) = Ok r) <->
  zlen x mod audio_unit f = 0 /\ zlen y mod audio_unit f = 0.
Proof. rewrite data_total, audio_units. reflexivity. Qed.
Theorem video_whole f id opts attr x y : (exists r, data_equality (code_for_video f) id opts attr (Some x) (Some y) = Ok r) <->
  zlen x mod video_unit f = 0 /\ zlen y mod video_unit f = 0.
Proof. rewrite data_total, video_units. reflexivity. Qed.

Theorem pairwise psnr last opts a b r n : Forall stored_ok a -> Forall stored_ok b -> compare_grains_pairwise psnr last opts a b = Ok (r, n) ->
  (r_equal r = true <-> Forall2 (grains_agree psnr opts) a b) /\ 0 <= n /\ pairs_compared (grains_agree psnr opts) a b (Z.to_nat n).
Proof. intros A B. exact (pairwise_spec psnr last opts a b r n (stored_all a A) (stored_all b B)). Qed.
