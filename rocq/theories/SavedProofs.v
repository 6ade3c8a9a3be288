(** What survives a file compares as equal. *)
From Coq Require Import String Lia ZifyBool ZifyNat.
From Verif Require Import Base BaseProofs PyValue PyValueProofs Json JsonProofs CogEnums GrainObj EventSpec Compare CompareSpec CompareTree CompareMain CompareTotal CompareSym CompareLaws
  GrainGsfSpec SavedSpec.
Local Open Scope list_scope.

Lemma lowest_unique n m n' m' : lowest n m n m -> lowest n m n' m' -> n' = n /\ m' = m.
Proof.
  intros [(A & -> & ->)|(A & B & G & P & _)] [(C & -> & ->)|(C & D & G' & P' & E)]; try (split; reflexivity).
  - destruct A as [A|A]; congruence.
  - destruct C as [C|C]; congruence.
  - assert (X : (m | m')).
    { apply (Znumtheory.Gauss m n m'); [exists n'; lia|]. apply Znumtheory.Zgcd_1_rel_prime. rewrite Z.gcd_comm. exact G. }
    assert (Y : (m' | m)).
    { apply (Znumtheory.Gauss m' n' m); [exists n; lia|]. apply Znumtheory.Zgcd_1_rel_prime. rewrite Z.gcd_comm. exact G'. }
    assert (M : m' = m). { apply Z.divide_antisym_nonneg; try lia; assumption. }
    subst m'. split; [|reflexivity]. apply (Z.mul_reg_r _ _ m); auto. 
Qed.
Lemma whole_eq v z : whole v z -> py_eq v (PInt z) = true.
Proof. unfold whole. destruct v; cbn [as_q]; try discriminate; intros H; injection H; intros; subst; cbn [py_eq as_q]; rewrite ?Z.eqb_refl; reflexivity. Qed.
Lemma whole_bool v b : whole v (Z.b2z b) -> py_eq v (PBool b) = true.
Proof. unfold whole. destruct v; cbn [as_q]; try discriminate; intros H; injection H; intros; subst; cbn [py_eq as_q]; rewrite ?Z.eqb_refl; try reflexivity. rewrite H0, Z.eqb_refl. reflexivity. Qed.
Lemma whole_int v z w : whole v z -> to_int v = Ok w -> w = z.
Proof. unfold whole. destruct v; cbn [as_q to_int]; try discriminate; intros H K; apply Ok_eq in K; injection H; intros; subst; try reflexivity. apply Z.quot_1_r. Qed.
Lemma label_same d d' : plain_label d -> label_after d d' -> d' = d.
Proof.
  intros (tag & c & n & m & b & L & ->) (tag' & t & c' & n' & m' & x & n1 & m1 & A & B & C & D & E & F & G & ->).
  cbn in A, B. injection A as <-. injection B as <-. destruct C as (v & C & C'). destruct D as (w & D & D'). destruct E as (u & E & E').
  cbn in C, D, E, F. injection C as <-. injection D as <-. injection E as <-. injection F as <-.
  unfold whole in *. cbn [as_q] in *. injection C' as <-. injection D' as <-. injection E' as <-.
  destruct (lowest_unique _ _ _ _ L G) as [-> ->]. cbn [truthy]. reflexivity.
Qed.
Lemma labels_same l l' : Forall plain_label l -> Forall2 label_after l l' -> l' = l.
Proof. intros P F. induction F as [|d d' l l' A F IH]; [reflexivity|]. inversion P; subst. f_equal; auto using label_same. Qed.
Lemma wholes_same l u x : Forall2 whole l u -> map_res as_number l = Ok x -> x = u.
Proof.
  intros F. revert x. induction F as [|v z l u W F IH]; intros x H; cbn [map_res] in H; [apply Ok_eq in H; congruence|].
  apply rbind_ok in H as (y & Hy & H). apply rbind_ok in H as (r & Hr & H). apply Ok_eq in H. subst x. f_equal; auto.
  unfold as_number in Hy. unfold whole in W. rewrite W in Hy. apply Ok_eq in Hy. congruence.
Qed.
Lemma numbers_read u : map_res as_number (map PInt u) = Ok u.
Proof. induction u as [|z u IH]; [reflexivity|]. cbn [map map_res as_number as_q rbind]. rewrite IH. reflexivity. Qed.

Lemma own_inj c c' t : PStr (own_type c) = PStr t -> own_type c' = t -> c = c'.
Proof. intros E <-. apply (f_equal (fun v => match v with PStr s => s | _ => [] end)) in E. cbv beta iota in E. destruct c, c'; try reflexivity; vm_compute in E; discriminate E. Qed.

Lemma in_by (n : str) l : existsb (zlist_eqb n) l = true -> In n l.
Proof. intros H. apply existsb_exists in H as (x & I & E). apply zlist_eqb_eq in E. subst x. exact I. Qed.
Lemma in_rest (n : str) l skips l' : In n l -> ~ In n skips -> forallb (fun x => existsb (zlist_eqb x) skips || existsb (zlist_eqb x) l') l = true -> In n l'.
Proof.
  intros I S F. rewrite forallb_forall in F. specialize (F n I). apply orb_true_iff in F as [F|F]; [destruct (S (in_by n skips F))|exact (in_by n l' F)].
Qed.
Lemma not_there (n m : str) l : In n l -> existsb (zlist_eqb m) l = false -> n <> m.
Proof. intros I E ->. assert (X : existsb (zlist_eqb m) l = true) by (apply existsb_exists; exists m; split; [exact I|apply zlist_eqb_refl]). congruence. Qed.
Lemma not_one (n m : str) : n <> m -> ~ In n [m].
Proof. intros H [E|[]]. congruence. Qed.

Theorem saved_plain psnr key opts major now o o' :
  survives major now o o' -> kept_exactly major o -> o_class o <> KEvent -> of_own_type o -> plain_options opts ->
  meta_ok o -> stored_ok o -> no_nan o -> can_compare psnr opts o o ->
  exists r, compare_with_key psnr key opts o o' = Ok r /\ r_equal r = true.
Proof.
  intros S K NE OT [NM NI] M ST NN [P T L Y KL KE].
  assert (DD : get_data o' = get_data o).
  { destruct (sv_data _ _ _ _ S NE) as (d & Hd & Hd' & _). rewrite Hd', Hd. f_equal. pose proof (ke_data _ _ K) as Q. 
    unfold get_data in Hd. destruct (o_class o); try (apply Ok_eq in Hd; subst d); try congruence; destruct (o_data o) as [[|b r]|]; congruence. }
  assert (ST' : stored_ok o').
  { intros x Hx. apply ST. unfold get_data in DD. rewrite (sv_class _ _ _ _ S) in DD. destruct (o_class o); try (apply Ok_eq in DD; congruence); congruence. }
  assert (LE : getattr o' $"length" = getattr o $"length") by (destruct (sv_data _ _ _ _ S NE) as (d & _ & _ & E); exact E).
  destruct (L o (or_introl eq_refl)) as [l Hl]. pose proof (P o (or_introl eq_refl)) as Pr.
  assert (LB : labels o' = Ok l).
  { destruct (sv_labels _ _ _ _ S) as (l1 & l2 & A & B & F). rewrite Hl in A. apply Ok_eq in A. subst l1. rewrite B. f_equal. exact (labels_same l l2 (ke_labels _ _ K l Hl) F). }
  assert (TM : forall n, In n [$"origin_timestamp"; $"sync_timestamp"] -> exists t, getattr o n = Ok (PTime t) /\ getattr o' n = Ok (PTime t)).
  { intros n Hn. destruct (sv_times _ _ _ _ S n Hn) as (t & A & B). exists t. split; [exact A|]. rewrite B. destruct (major =? 7) eqn:E; [|reflexivity].
    apply Z.eqb_eq in E. rewrite Z.abs_eq; [reflexivity|]. exact (ke_times _ _ K E n t Hn A). }
  assert (SM : forall n, In n ([$"grain_type"; $"source_id"; $"src_id"; $"flow_id"; $"rate"; $"duration"; $"length"] ++ enum_names (o_class o)) -> getattr o' n = getattr o n).
  { intros n Hn. apply in_app_or in Hn as [Hn|Hn].
    - destruct (zlist_eqb n $"length") eqn:E; [apply zlist_eqb_eq in E; subst n; exact LE|]. apply zlist_eqb_neq in E.
      apply (sv_same _ _ _ _ S). apply in_or_app. left. cbn [In] in *. intuition congruence.
    - apply (sv_same _ _ _ _ S). apply in_or_app. right. exact Hn. }
  assert (SA : forall n, getattr o' n = getattr o n -> readable o n -> agree opts o o' n).
  { intros n E [v Hv]. right. exists v, v. split; [exact Hv|]. split; [congruence|]. apply good_refl. exact (getattr_good o n v M Hv). }
  assert (SR : forall n, getattr o' n = getattr o n -> readable o n -> readable o' n) by (intros n E [v Hv]; exists v; congruence).
  assert (NU : forall n, In n (number_names (o_class o)) -> n <> $"extension" -> same_attr o o' n).
  { intros n Hn X. destruct (sv_numbers _ _ _ _ S n Hn) as (v & z & A & B & C). exists v, (PInt z). split; [exact A|]. split; [exact C|].
    destruct (ke_numbers _ _ K n v Hn X A) as [w W]. rewrite (whole_int v w z W B). apply whole_eq, W. }
  assert (KF : o_class o = KCodedVideo -> same_attr o o' $"is_key_frame").
  { intros C. destruct (sv_key _ _ _ _ S C) as (v & w & A & B & D). exists v, w. split; [exact A|]. split; [exact B|]. pose proof (ke_key _ _ K C) as Q.
    unfold key_after in D. destruct v; try (destruct D as (kb & -> & W); apply whole_bool, W). destruct (major <? 9) eqn:X; [exfalso; apply Q; [lia|exact A]|]. subst w. reflexivity. }
  assert (TF : o_class o = KCodedVideo -> same_attr o o' $"temporal_offset").
  { intros C. destruct (sv_temporal _ _ _ _ S C) as (v & w & A & B & D). exists v, w. split; [exact A|]. split; [exact B|].
    destruct (ke_temporal _ _ K C v A) as [[-> Q]|(z & W & Q)].
    - cbn [temporal_after] in D. replace (major <? 9) with false in D by lia. subst w. reflexivity.
    - assert (D' : exists z, to_int v = Ok z /\ w = if (9 <=? major) && (z =? 2147483647) then PNone else PInt z) by (destruct v; try exact D; discriminate W).
      destruct D' as (z' & I & ->). rewrite (whole_int v z z' W I). destruct (9 <=? major) eqn:X; cbn [andb]; [|apply whole_eq, W].
      replace (z =? 2147483647) with false by (assert (z <> 2147483647) by (apply Q; lia); lia). apply whole_eq, W. }
  assert (PS : forall w k u, (forall x, get_data o = Ok (Some x) -> payload_agrees k x x) -> can_data psnr w u opts o o -> data_agree psnr w k opts o o').
  { intros w k u R [_ CD]. right; right. split; [intros _ m; apply (proj2 NM)|]. rewrite DD.
    destruct (CD (fun _ m => proj2 NM _ m) o (or_introl eq_refl)) as (d & Hd & _). rewrite Hd. destruct d as [x|]; [right; exists x, x; auto|left; auto]. }
  assert (CD : forall w u, can_data psnr w u opts o o -> can_data psnr w u opts o o').
  { intros w u [C1 C2]. split; [intros _ [m Hm]; destruct (proj2 NM _ _ Hm)|]. intros N x [->| ->]; [exact (C2 N o (or_introl eq_refl))|]. rewrite DD. exact (C2 N o (or_introl eq_refl)). }
  assert (CF : forall w name u, getattr o' name = getattr o name -> can_if_format psnr w name u opts o o -> can_if_format psnr w name u opts o o').
  { intros w name u E C f F1 F2. apply CD. exact (C f F1 F1). }
  assert (DF : forall w name k u, (forall f x, getattr o name = Ok (PInt f) -> get_data o = Ok (Some x) -> payload_agrees (k f) x x) ->
     can_if_format psnr w name u opts o o -> data_if_format psnr w name k opts o o').
  { intros w name k u R C f F1 F2. eapply PS; [intros x; apply R; exact F1|exact (C f F1 F1)]. }
  assert (GT : getattr o' $"grain_type" = getattr o $"grain_type") by (apply SM; cbn [In app]; tauto).
  assert (E0 : py_eq (PStr (own_type (o_class o))) (PStr (own_type (o_class o))) = true) by (cbn [py_eq]; apply zlist_eqb_refl).
  pose proof (Y _ _ OT OT E0) as Y0. pose proof (sv_class _ _ _ _ S) as CL.
  assert (C : can_compare psnr opts o o').
  { constructor.
    - intros x [->| ->] n Hn; [exact (Pr n Hn)|]. apply SR; [|exact (Pr n Hn)]. apply SM. apply in_or_app. left. cbn [In] in *. tauto.
    - intros x [->| ->] n Hn; [exact (T o (or_introl eq_refl) n Hn)|]. destruct (zlist_eqb n $"creation_timestamp") eqn:E.
      + apply zlist_eqb_eq in E. subst n. exists (PTime now). exact (sv_creation _ _ _ _ S).
      + apply zlist_eqb_neq in E. destruct (TM n) as (t & _ & B); [cbn [In] in *; intuition congruence|]. exists (PTime t). exact B.
    - intros x [->| ->]; exists l; assumption.
    - intros t u A B _. rewrite OT in A. apply Ok_eq in A. subst t. destruct Y0 as [Y1 Y2 Y3 Y4 Y5 Y6].
      constructor; intros X.
      + exfalso. exact (NE (own_inj _ KEvent _ X eq_refl)).
      + assert (CC : o_class o = KAudio) by exact (own_inj _ KAudio _ X eq_refl). rewrite CC in *.
        destruct (Y2 X) as [R F]. split; [|apply CF; [apply SM; apply in_by; reflexivity|exact F]].
        intros x [->| ->] n Hn; [exact (R o (or_introl eq_refl) n Hn)|]. destruct (zlist_eqb n $"cog_audio_format") eqn:E.
        * apply zlist_eqb_eq in E. subst n. apply SR; [apply SM; apply in_by; reflexivity|]. apply (R o (or_introl eq_refl)). cbn [In]; tauto.
        * apply zlist_eqb_neq in E. destruct (NU n) as (v & w & _ & W & _); [apply (in_rest n _ _ _ Hn (not_one _ _ E)); reflexivity|apply (not_there n _ _ Hn); reflexivity|]. exists w; exact W.
      + assert (CC : o_class o = KCodedAudio) by exact (own_inj _ KCodedAudio _ X eq_refl). rewrite CC in *.
        destruct (Y3 X) as [R F]. split; [|apply CF; [apply SM; apply in_by; reflexivity|exact F]].
        intros x [->| ->] n Hn; [exact (R o (or_introl eq_refl) n Hn)|]. destruct (zlist_eqb n $"cog_audio_format") eqn:E.
        * apply zlist_eqb_eq in E. subst n. apply SR; [apply SM; apply in_by; reflexivity|]. apply (R o (or_introl eq_refl)). cbn [In]; tauto.
        * apply zlist_eqb_neq in E. destruct (NU n) as (v & w & _ & W & _); [apply (in_rest n _ _ _ Hn (not_one _ _ E)); reflexivity|apply (not_there n _ _ Hn); reflexivity|]. exists w; exact W.
      + assert (CC : o_class o = KVideo) by exact (own_inj _ KVideo _ X eq_refl). rewrite CC in *.
        destruct (Y4 X) as [R F]. split; [|apply CF; [apply SM; apply in_by; reflexivity|exact F]].
        intros x [->| ->] n Hn; [exact (R o (or_introl eq_refl) n Hn)|].
        destruct (in_dec (list_eq_dec Z.eq_dec) n (enum_names KVideo)) as [E|E].
        * apply SR; [apply SM; apply in_or_app; right; exact E|]. apply (R o (or_introl eq_refl)). exact Hn.
        * destruct (NU n) as (v & w & _ & W & _); [apply (in_rest n _ _ _ Hn E); reflexivity|apply (not_there n _ _ Hn); reflexivity|]. exists w; exact W.
      + assert (CC : o_class o = KCodedVideo) by exact (own_inj _ KCodedVideo _ X eq_refl). specialize (KF CC). specialize (TF CC).
        destruct (sv_units _ _ _ _ S CC) as (us & u' & U1 & U2 & U3). rewrite CC in *.
        destruct (Y5 X) as [R F]. split; [|apply CF; [apply SM; apply in_by; reflexivity|exact F]].
        destruct (R o (or_introl eq_refl)) as (R1 & R2 & R3).
        intros x [->| ->]; [exact (R o (or_introl eq_refl))|]. split; [apply SR; [apply SM; apply in_by; reflexivity|exact R1]|]. split.
        * intros n Hn. left.
          destruct (zlist_eqb n $"is_key_frame") eqn:E1; [apply zlist_eqb_eq in E1; subst n; destruct KF as (v & w & _ & W & _); exists w; exact W|].
          destruct (zlist_eqb n $"temporal_offset") eqn:E2; [apply zlist_eqb_eq in E2; subst n; destruct TF as (v & w & _ & W & _); exists w; exact W|].
          apply zlist_eqb_neq in E1. apply zlist_eqb_neq in E2.
          destruct (in_dec (list_eq_dec Z.eq_dec) n (enum_names KCodedVideo)) as [E|E].
          -- destruct (sv_same _ _ _ _ S n) as [G [v V]]; [apply in_or_app; right; rewrite CC; exact E|]. exists v; congruence.
          -- destruct (NU n) as (v & w & _ & W & _); [apply (in_rest n _ ($"is_key_frame" :: $"temporal_offset" :: enum_names KCodedVideo) _ Hn); [intros [Z|[Z|Z]]; [exact (E1 (eq_sym Z))|exact (E2 (eq_sym Z))|exact (E Z)]|reflexivity]|apply (not_there n _ _ Hn); reflexivity|]. exists w; exact W.
        * exists u'. rewrite U2. cbn [rbind]. apply numbers_read.
      + apply CD. exact (Y6 X).
    - intros la lb i d e k A B. rewrite LB in B. apply (KL la lb i d e k A). congruence.
    - intros A _. unfold has_type in A. rewrite OT in A. apply Ok_eq in A. exfalso. exact (NE (own_inj _ KEvent _ A eq_refl)). }
  destruct (proj2 (compare_total psnr key opts o o') C) as [r Hr]. exists r. split; [exact Hr|].
  apply (compare_agree psnr key opts o o' r (stored_payload o ST) (stored_payload o' ST') Hr).
  assert (BB : forall x, payload_agrees Bytes x x) by reflexivity.
  constructor.
  - intros n Hn. apply SA; [apply SM; apply in_or_app; left; cbn [In] in *; tauto|apply Pr; cbn [In] in *; tauto].
  - left. apply SA; [exact LE|apply Pr; cbn [In]; tauto].
  - intros n Hn. destruct (TM n Hn) as (t & A & B). right. exists t, t. split; [exact A|]. split; [exact B|]. apply expected_refl, NM.
  - intros I. destruct (NI I).
  - right. exists l, l. split; [exact Hl|]. split; [exact LB|]. apply lists_refl. intros i x Hx. apply dicts_refl. pose proof (labels_good o l M Hl) as G. rewrite Forall_forall in G. auto.
  - intros t u A B _. rewrite OT in A. apply Ok_eq in A. subst t. destruct Y0 as [Y1 Y2 Y3 Y4 Y5 Y6].
    constructor; intros X.
    + exfalso. exact (NE (own_inj _ KEvent _ X eq_refl)).
    + assert (CC : o_class o = KAudio) by exact (own_inj _ KAudio _ X eq_refl). rewrite CC in *.
      destruct (Y2 X) as [R F]. split.
      * intros n Hn. destruct (zlist_eqb n $"cog_audio_format") eqn:E.
        -- apply zlist_eqb_eq in E. subst n. apply SA; [apply SM; apply in_by; reflexivity|]. apply (R o (or_introl eq_refl)). cbn [In]; tauto.
        -- apply zlist_eqb_neq in E. right. apply NU; [apply (in_rest n _ _ _ Hn (not_one _ _ E)); reflexivity|apply (not_there n _ _ Hn); reflexivity].
      * eapply DF; [|exact F]. intros f x F1 Hx. destruct (NN f x F1 Hx) as [Q D].
        destruct (audio_kind f) eqn:KK; cbn [payload_agrees]; auto; (split; [reflexivity|]); intros i Hi; (split; [|split]); auto.
    + assert (CC : o_class o = KCodedAudio) by exact (own_inj _ KCodedAudio _ X eq_refl). rewrite CC in *.
      destruct (Y3 X) as [R F]. split; [|eapply DF; [|exact F]; auto].
      intros n Hn. destruct (zlist_eqb n $"cog_audio_format") eqn:E.
      * apply zlist_eqb_eq in E. subst n. apply SA; [apply SM; apply in_by; reflexivity|]. apply (R o (or_introl eq_refl)). cbn [In]; tauto.
      * apply zlist_eqb_neq in E. right. apply NU; [apply (in_rest n _ _ _ Hn (not_one _ _ E)); reflexivity|apply (not_there n _ _ Hn); reflexivity].
    + assert (CC : o_class o = KVideo) by exact (own_inj _ KVideo _ X eq_refl). rewrite CC in *.
      destruct (Y4 X) as [R F]. split; [|eapply DF; [|exact F]; auto].
      intros n Hn. destruct (in_dec (list_eq_dec Z.eq_dec) n (enum_names KVideo)) as [E|E].
      * apply SA; [apply SM; apply in_or_app; right; exact E|]. apply (R o (or_introl eq_refl)). exact Hn.
      * right. apply NU; [apply (in_rest n _ _ _ Hn E); reflexivity|apply (not_there n _ _ Hn); reflexivity].
    + assert (CC : o_class o = KCodedVideo) by exact (own_inj _ KCodedVideo _ X eq_refl). specialize (KF CC). specialize (TF CC).
      destruct (sv_units _ _ _ _ S CC) as (us & u' & U1 & U2 & U3). rewrite CC in *.
      destruct (Y5 X) as [R F]. split; [|split; [|eapply DF; [|exact F]; auto]].
      * assert (SN : forall n, same_attr o o' n -> same_or_none o o' n) by (intros n (v & w & V & W & E); exists v, w; auto).
        intros n Hn. right. apply SN.
        destruct (zlist_eqb n $"is_key_frame") eqn:E1; [apply zlist_eqb_eq in E1; subst n; exact KF|].
        destruct (zlist_eqb n $"temporal_offset") eqn:E2; [apply zlist_eqb_eq in E2; subst n; exact TF|].
        apply zlist_eqb_neq in E1. apply zlist_eqb_neq in E2.
        destruct (in_dec (list_eq_dec Z.eq_dec) n (enum_names KCodedVideo)) as [E|E].
        -- destruct (sv_same _ _ _ _ S n) as [G [v V]]; [apply in_or_app; right; rewrite CC; exact E|]. exists v, v. split; [exact V|]. split; [congruence|]. apply good_refl. exact (getattr_good o n v M V).
        -- apply NU; [apply (in_rest n _ ($"is_key_frame" :: $"temporal_offset" :: enum_names KCodedVideo) _ Hn); [intros [Z|[Z|Z]]; [exact (E1 (eq_sym Z))|exact (E2 (eq_sym Z))|exact (E Z)]|reflexivity]|apply (not_there n _ _ Hn); reflexivity].
      * right. destruct (R o (or_introl eq_refl)) as (_ & _ & x & Hx). exists x, u'. split; [exact Hx|]. rewrite U2. cbn [rbind]. split; [apply numbers_read|].
        rewrite U1 in Hx. cbn [rbind] in Hx. rewrite (wholes_same _ _ _ U3 Hx). apply lists_refl. intros i z _. apply expected_refl, NM.
    + eapply PS; [|exact (Y6 X)]. auto.
Qed.
