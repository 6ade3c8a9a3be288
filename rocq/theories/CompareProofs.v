From Coq Require Import String Lia ZifyBool ZifyNat.
From Verif Require Import Base BaseProofs PyValue PyValueProofs Json JsonProofs CogEnums GrainObj Difflib DifflibProofs Compare CompareSpec.
Local Open Scope list_scope.
Ltac Zify.zify_post_hook ::= Z.div_mod_to_equations.

(** ** Payloads. *)
Lemma chunks_forall n (R : bytes -> bytes -> Prop) : 0 < n -> forall f g x y, (List.length x <= f)%nat -> (List.length y <= g)%nat ->
  Forall2 R (chunks f n x) (chunks g n y) <->
  zlen x / n = zlen y / n /\ forall i, 0 <= i < zlen x / n -> R (sample n i x) (sample n i y).
Proof.
  intros Hn. induction f as [|f IH]; intros g x y Hx Hy.
  - destruct x; [|cbn in Hx; lia]. cbn [chunks]. change (zlen (@nil Z)) with 0. rewrite Z.div_0_l by lia.
    destruct g as [|g]; cbn [chunks].
    + destruct y; [|cbn in Hy; lia]. change (zlen (@nil Z)) with 0. rewrite Z.div_0_l by lia. split; [intros _; split; [reflexivity|lia]|constructor].
    + destruct (zlen y <? n) eqn:E.
      * rewrite Z.div_small by (unfold zlen in *; lia). split; [intros _; split; [reflexivity|lia]|constructor].
      * split; [intros H; inversion H|intros [H _]]. exfalso. assert (1 <= zlen y / n) by (apply Z.div_le_lower_bound; lia). lia.
  - cbn [chunks]. destruct (zlen x <? n) eqn:Ex.
    + rewrite (Z.div_small (zlen x)) by (unfold zlen in *; lia).
      destruct g as [|g]; cbn [chunks].
      * destruct y; [|cbn in Hy; lia]. change (zlen (@nil Z)) with 0. rewrite Z.div_0_l by lia. split; [intros _; split; [reflexivity|lia]|constructor].
      * destruct (zlen y <? n) eqn:E.
        -- rewrite Z.div_small by (unfold zlen in *; lia). split; [intros _; split; [reflexivity|lia]|constructor].
        -- split; [intros H; inversion H|intros [H _]]. exfalso. assert (1 <= zlen y / n) by (apply Z.div_le_lower_bound; lia). lia.
    + assert (Hx1 : 1 <= zlen x / n) by (apply Z.div_le_lower_bound; lia).
      destruct g as [|g]; cbn [chunks].
      * destruct y; [|cbn in Hy; lia]. change (zlen (@nil Z)) with 0. rewrite Z.div_0_l by lia.
        split; [intros H; inversion H|intros [H _]; lia].
      * destruct (zlen y <? n) eqn:E.
        -- rewrite (Z.div_small (zlen y)) by (unfold zlen in *; lia). split; [intros H; inversion H|intros [H _]; lia].
        -- assert (Lx : zlen (zskip n x) = zlen x - n) by (rewrite zlen_zskip by lia; lia).
           assert (Ly : zlen (zskip n y) = zlen y - n) by (rewrite zlen_zskip by lia; lia).
           assert (Dx : zlen (zskip n x) / n = zlen x / n - 1).
           { rewrite Lx. replace (zlen x - n) with (zlen x + (-1) * n) by ring. rewrite Z.div_add by lia. ring. }
           assert (Dy : zlen (zskip n y) / n = zlen y / n - 1).
           { rewrite Ly. replace (zlen y - n) with (zlen y + (-1) * n) by ring. rewrite Z.div_add by lia. ring. }
           assert (Sx : forall i, 0 <= i -> sample n i (zskip n x) = sample n (i + 1) x).
           { intros i Hi. unfold sample. rewrite zskip_zskip by nia. f_equal. f_equal. ring. }
           assert (Sy : forall i, 0 <= i -> sample n i (zskip n y) = sample n (i + 1) y).
           { intros i Hi. unfold sample. rewrite zskip_zskip by nia. f_equal. f_equal. ring. }
           specialize (IH g (zskip n x) (zskip n y)).
           assert (A : (List.length (zskip n x) <= f)%nat) by (unfold zlen in *; lia).
           assert (B : (List.length (zskip n y) <= g)%nat) by (unfold zlen in *; lia).
           specialize (IH A B). rewrite Dx, Dy in IH.
           assert (Z0 : forall z, sample n 0 z = zfirst n z) by (intros z; unfold sample; rewrite Z.mul_0_r, zskip_le0 by lia; reflexivity).
           split.
           ++ intros H. inversion H as [|? ? ? ? H1 H2]; subst. apply IH in H2 as [H2 H3]. split; [clear - H2; lia|].
              intros i Hi. destruct (Z.eq_dec i 0) as [->|N]; [rewrite !Z0; exact H1|].
              replace i with (i - 1 + 1) by ring. rewrite <- Sx, <- Sy by (clear - Hi N; lia). apply H3. clear - Hi N; lia.
           ++ intros [H1 H2]. constructor.
              ** rewrite <- !Z0. apply H2. clear - Hx1; lia.
              ** apply IH. split; [clear - H1; lia|]. intros i Hi. rewrite Sx, Sy by (clear - Hi; lia). apply H2. clear - Hi; lia.
Qed.
Lemma chunks_concat n : 0 < n -> forall f x, (List.length x <= f)%nat -> concat (chunks f n x) = zfirst (n * (zlen x / n)) x.
Proof.
  intros Hn. induction f as [|f IH]; intros x Hx.
  - destruct x; [|cbn in Hx; lia]. cbn [chunks concat]. rewrite zfirst_all; [reflexivity|]. change (zlen (@nil Z)) with 0. rewrite Z.div_0_l; lia.
  - cbn [chunks]. destruct (zlen x <? n) eqn:E.
    + rewrite Z.div_small by (unfold zlen in *; lia). rewrite Z.mul_0_r. cbn [concat]. rewrite zfirst_firstn. reflexivity.
    + cbn [concat]. assert (L : zlen (zskip n x) = zlen x - n) by (rewrite zlen_zskip by lia; lia).
      rewrite IH by (unfold zlen in *; lia). rewrite L.
      replace (zlen x - n) with (zlen x + (-1) * n) by ring. rewrite Z.div_add by lia.
      assert (Hx1 : 1 <= zlen x / n) by (apply Z.div_le_lower_bound; lia).
      replace (zfirst (n * (zlen x / n)) x) with (zfirst (n * (zlen x / n)) (zfirst n x ++ zskip n x)) by (rewrite zfirst_zskip; reflexivity).
      assert (LF : zlen (zfirst n x) = n) by (rewrite zlen_zfirst by lia; lia); rewrite zfirst_app_ge; rewrite LF; [f_equal; f_equal; ring|nia].
Qed.
Lemma le_value_bound l : bytes_ok l -> 0 <= le_value l < 256 ^ zlen l.
Proof.
  induction 1 as [|b l Hb Hl IH]; [cbn; lia|]. unfold byte_ok in Hb. cbn [le_value]. rewrite zlen_cons, Z.add_comm.
  rewrite Z.pow_add_r by (unfold zlen; lia). change (256 ^ 1) with 256. clear - Hb IH; nia.
Qed.
Lemma le_value_inj x : forall y, bytes_ok x -> bytes_ok y -> zlen x = zlen y -> le_value x = le_value y -> x = y.
Proof.
  induction x as [|b x IH]; intros [|c y] Hx Hy L E.
  - reflexivity.
  - rewrite zlen_cons in L. change (zlen (@nil Z)) with 0 in L. unfold zlen in L; lia.
  - rewrite zlen_cons in L. change (zlen (@nil Z)) with 0 in L. unfold zlen in L; lia.
  - inversion Hx as [|? ? B1 B2]; inversion Hy as [|? ? C1 C2]; subst. unfold byte_ok in *. cbn [le_value] in E. rewrite !zlen_cons in L.
    assert (b = c) by lia. subst c. f_equal. apply IH; auto; lia.
Qed.
Lemma signed_inj n v w : 0 < n -> 0 <= v < 256 ^ n -> 0 <= w < 256 ^ n -> signed n v = signed n w -> v = w.
Proof.
  intros Hn Hv Hw. unfold signed. replace (256 ^ n) with (2 ^ (8 * n)) in * by (change 256 with (2 ^ 8); rewrite <- Z.pow_mul_r by lia; f_equal; lia).
  replace (2 ^ (8 * n)) with (2 * 2 ^ (8 * n - 1)) in * by (rewrite <- Z.pow_succ_r by lia; f_equal; lia).
  generalize dependent (2 ^ (8 * n - 1)). intros P Hv Hw.
  destruct (v >=? P) eqn:E; destruct (w >=? P) eqn:F; lia.
Qed.
Lemma word_eq_int c s t : kind_of c = Bytes \/ kind_of c = Triples -> bytes_ok s -> bytes_ok t -> zlen s = code_size c -> zlen t = code_size c ->
  word_eq (word_of c s) (word_of c t) = true <-> s = t.
Proof.
  intros K Hs Ht Ls Lt.
  assert (E : word_of c s = WInt (if code_signed c then signed (code_size c) (le_value s) else le_value s)) by (destruct c; try reflexivity; destruct K; discriminate).
  assert (F : word_of c t = WInt (if code_signed c then signed (code_size c) (le_value t) else le_value t)) by (destruct c; try reflexivity; destruct K; discriminate).
  rewrite E, F. cbn [word_eq]. rewrite Z.eqb_eq. split; [|intros ->; reflexivity].
  pose proof (le_value_bound s Hs) as Bs. pose proof (le_value_bound t Ht) as Bt. rewrite Ls in Bs. rewrite Lt in Bt.
  intros H. apply le_value_inj; auto; [congruence|]. destruct (code_signed c); [|exact H].
  apply (signed_inj (code_size c)); auto. destruct c; reflexivity.
Qed.
Lemma bytes_cons b l : bytes_ok (b :: l) -> 0 <= b < 256 /\ bytes_ok l.
Proof. intros H. inversion H as [|? ? H1 H2]; subst. unfold byte_ok in H1. split; [exact H1|exact H2]. Qed.
Lemma land_low a n : 0 <= n -> Z.land a (2 ^ n - 1) = a mod 2 ^ n.
Proof. intros H. replace (2 ^ n - 1) with (Z.ones n) by (rewrite Z.ones_equiv; lia). apply Z.land_ones; lia. Qed.
Lemma four (s : bytes) : zlen s = 4 -> exists a b c d, s = [a; b; c; d].
Proof. intros H. destruct s as [|a [|b [|c [|d [|e s]]]]]; try (exfalso; unfold zlen in H; cbn [List.length] in H; lia). exists a, b, c, d; reflexivity. Qed.
Lemma eight (s : bytes) : zlen s = 8 -> exists a b c d e f g h, s = [a; b; c; d; e; f; g; h].
Proof. intros H. destruct s as [|a [|b [|c [|d [|e [|f [|g [|h [|i s]]]]]]]]]; try (exfalso; unfold zlen in H; cbn [List.length] in H; lia). exists a, b, c, d, e, f, g, h; reflexivity. Qed.
Lemma nan_single s : bytes_ok s -> zlen s = 4 -> nan 23 (le_value s) = true <-> single_nan s.
Proof.
  intros Hs L. destruct (four s L) as (a & b & c & d & ->).
  apply bytes_cons in Hs as [Ha Hs]. apply bytes_cons in Hs as [Hb Hs]. apply bytes_cons in Hs as [Hc Hs]. apply bytes_cons in Hs as [Hd Hs].
  unfold nan. cbn [Z.eqb Pos.eqb]. rewrite Z.shiftr_div_pow2 by lia. rewrite !land_low by lia. change (2 ^ 23) with 8388608. change (2 ^ 8) with 256.
  cbn [le_value]. split.
  - intros E. exists a, b, c, d. clear - Ha Hb Hc Hd E. split; [reflexivity|]. lia.
  - intros (a' & b' & c' & d' & E & H5). assert (a' = a /\ b' = b /\ c' = c /\ d' = d) as (-> & -> & -> & ->) by (injection E; auto).
    clear - Ha Hb Hc Hd H5. lia.
Qed.
Lemma zero_single s : bytes_ok s -> zlen s = 4 -> float_zero 23 (le_value s) = true <-> single_zero s.
Proof.
  intros Hs L. destruct (four s L) as (a & b & c & d & ->).
  apply bytes_cons in Hs as [Ha Hs]. apply bytes_cons in Hs as [Hb Hs]. apply bytes_cons in Hs as [Hc Hs]. apply bytes_cons in Hs as [Hd Hs].
  unfold float_zero, single_zero. cbn [Z.eqb Pos.eqb]. rewrite land_low by lia. change (2 ^ 31) with 2147483648. cbn [le_value]. split.
  - intros E. assert (a = 0 /\ b = 0 /\ c = 0 /\ (d = 0 \/ d = 128)) as (-> & -> & -> & [-> | ->]) by (clear - Ha Hb Hc Hd E; lia); auto.
  - intros [E|E]; injection E as -> -> -> ->; reflexivity.
Qed.
Lemma nan_double s : bytes_ok s -> zlen s = 8 -> nan 52 (le_value s) = true <-> double_nan s.
Proof.
  intros Hs L. destruct (eight s L) as (a & b & c & d & e & f & g & h & ->).
  apply bytes_cons in Hs as [Ha Hs]. apply bytes_cons in Hs as [Hb Hs]. apply bytes_cons in Hs as [Hc Hs]. apply bytes_cons in Hs as [Hd Hs].
  apply bytes_cons in Hs as [He Hs]. apply bytes_cons in Hs as [Hf Hs]. apply bytes_cons in Hs as [Hg Hs]. apply bytes_cons in Hs as [Hh Hs].
  unfold nan. cbn [Z.eqb Pos.eqb]. rewrite Z.shiftr_div_pow2 by lia. rewrite !land_low by lia. change (2 ^ 52) with 4503599627370496. change (2 ^ 11) with 2048.
  cbn [le_value]. split.
  - intros E. exists a, b, c, d, e, f, g, h. clear - Ha Hb Hc Hd He Hf Hg Hh E. split; [reflexivity|]. lia.
  - intros (a' & b' & c' & d' & e' & f' & g' & h' & E & K).
    assert (a' = a /\ b' = b /\ c' = c /\ d' = d /\ e' = e /\ f' = f /\ g' = g /\ h' = h) as (-> & -> & -> & -> & -> & -> & -> & ->) by (injection E; auto 12).
    clear - Ha Hb Hc Hd He Hf Hg Hh K. lia.
Qed.
Lemma zero_double s : bytes_ok s -> zlen s = 8 -> float_zero 52 (le_value s) = true <-> double_zero s.
Proof.
  intros Hs L. destruct (eight s L) as (a & b & c & d & e & f & g & h & ->).
  apply bytes_cons in Hs as [Ha Hs]. apply bytes_cons in Hs as [Hb Hs]. apply bytes_cons in Hs as [Hc Hs]. apply bytes_cons in Hs as [Hd Hs].
  apply bytes_cons in Hs as [He Hs]. apply bytes_cons in Hs as [Hf Hs]. apply bytes_cons in Hs as [Hg Hs]. apply bytes_cons in Hs as [Hh Hs].
  unfold float_zero, double_zero. cbn [Z.eqb Pos.eqb]. rewrite land_low by lia. change (2 ^ 63) with 9223372036854775808. cbn [le_value]. split.
  - intros E. assert (a = 0 /\ b = 0 /\ c = 0 /\ d = 0 /\ e = 0 /\ f = 0 /\ g = 0 /\ (h = 0 \/ h = 128)) as (-> & -> & -> & -> & -> & -> & -> & [-> | ->])
      by (clear - Ha Hb Hc Hd He Hf Hg Hh E; lia); auto.
  - intros [E|E]; injection E as -> -> -> -> -> -> -> ->; reflexivity.
Qed.
Lemma word_eq_single s t : bytes_ok s -> bytes_ok t -> zlen s = 4 -> zlen t = 4 ->
  word_eq (word_of Cf s) (word_of Cf t) = true <-> same_float single_nan single_zero s t.
Proof.
  intros Hs Ht Ls Lt. cbn [word_of word_eq]. unfold same_float. rewrite <- !nan_single, <- !zero_single by assumption.
  rewrite Z.eqb_refl, !andb_true_iff, orb_true_iff, andb_true_iff, !negb_true_iff, !not_true_iff_false, Z.eqb_eq.
  split; [intros [[[_ A] B] C]|intros (A & B & C)]; (split; [|split] || (split; [split; [split|]|])); auto.
  - destruct C as [C|C]; auto. left. apply le_value_inj; auto; congruence.
  - destruct C as [->|C]; auto.
Qed.
Lemma word_eq_double s t : bytes_ok s -> bytes_ok t -> zlen s = 8 -> zlen t = 8 ->
  word_eq (word_of Cd s) (word_of Cd t) = true <-> same_float double_nan double_zero s t.
Proof.
  intros Hs Ht Ls Lt. cbn [word_of word_eq]. unfold same_float. rewrite <- !nan_double, <- !zero_double by assumption.
  rewrite Z.eqb_refl, !andb_true_iff, orb_true_iff, andb_true_iff, !negb_true_iff, !not_true_iff_false, Z.eqb_eq.
  split; [intros [[[_ A] B] C]|intros (A & B & C)]; (split; [|split] || (split; [split; [split|]|])); auto.
  - destruct C as [C|C]; auto. left. apply le_value_inj; auto; congruence.
  - destruct C as [->|C]; auto.
Qed.
Lemma word_eq_sym a b : word_eq a b = true -> word_eq b a = true.
Proof.
  destruct a as [x|f x]; destruct b as [y|g y]; cbn [word_eq]; try discriminate.
  - rewrite !Z.eqb_eq. auto.
  - rewrite !andb_true_iff, !orb_true_iff, !andb_true_iff, !Z.eqb_eq. intros [[[-> A] B] [->|[C D]]]; auto.
Qed.
Lemma word_eq_trans a b c : word_eq a b = true -> word_eq b c = true -> word_eq a c = true.
Proof.
  destruct a as [x|f x]; destruct b as [y|g y]; destruct c as [z|h z]; cbn [word_eq]; try discriminate.
  - rewrite !Z.eqb_eq. congruence.
  - rewrite !andb_true_iff, !orb_true_iff, !andb_true_iff, !Z.eqb_eq. intros [[[-> A] B] C] [[[-> A'] B'] C'].
    destruct C as [->|[C D]]; destruct C' as [->|[C' D']]; auto.
Qed.
Lemma bytes_zfirst n l : bytes_ok l -> bytes_ok (zfirst n l).
Proof. intros H. unfold bytes_ok in *. rewrite zfirst_firstn. rewrite Forall_forall in *. intros x Hx. apply H. rewrite <- (firstn_skipn (Z.to_nat n) l). apply in_or_app; auto. Qed.
Lemma bytes_zskip n l : bytes_ok l -> bytes_ok (zskip n l).
Proof. intros H. unfold bytes_ok in *. rewrite zskip_skipn. rewrite Forall_forall in *. intros x Hx. apply H. rewrite <- (firstn_skipn (Z.to_nat n) l). apply in_or_app; auto. Qed.
Lemma sample_len n i x : 0 < n -> 0 <= i < zlen x / n -> zlen (sample n i x) = n.
Proof.
  intros Hn Hi. assert (n * i + n <= zlen x) by (pose proof (Z.mul_div_le (zlen x) n Hn); nia).
  unfold sample. rewrite zlen_zfirst, zlen_zskip by nia. nia.
Qed.
Lemma sample_bytes n i x : bytes_ok x -> bytes_ok (sample n i x).
Proof. intros H. apply bytes_zfirst, bytes_zskip, H. Qed.
Lemma sample_prefix n i x : 0 < n -> 0 <= i < zlen x / n -> sample n i (zfirst (n * (zlen x / n)) x) = sample n i x.
Proof.
  intros Hn Hi. unfold sample. set (m := n * (zlen x / n)). assert (Hm : m <= zlen x) by (apply Z.mul_div_le; lia).
  assert (n * i + n <= m) by (unfold m; nia).
  rewrite <- (zfirst_zskip m x) at 2. assert (Lm : zlen (zfirst m x) = m) by (rewrite zlen_zfirst by nia; nia).
  rewrite zskip_app_le by nia. rewrite zfirst_app_le; [reflexivity|]. rewrite zlen_zskip, Lm by nia. nia.
Qed.
Lemma Forall2_map {A B} (f : A -> B) (R : B -> B -> Prop) l m : Forall2 R (map f l) (map f m) <-> Forall2 (fun x y => R (f x) (f y)) l m.
Proof.
  split.
  - revert m. induction l as [|x l IH]; intros [|y m] H; inversion H; subst; constructor; auto.
  - induction 1; constructor; auto.
Qed.
Lemma Forall2_eq {A} (l m : list A) : Forall2 eq l m <-> l = m.
Proof. split; [induction 1; congruence|intros ->; induction m; constructor; auto]. Qed.
Lemma whole n (x : bytes) : 0 < n -> zlen x mod n = 0 -> n * (zlen x / n) = zlen x.
Proof. intros Hn H. pose proof (Z.div_mod (zlen x) n). lia. Qed.
Lemma ints_prefix n (W : bytes -> bytes -> Prop) x y : 0 < n -> bytes_ok x -> bytes_ok y ->
  (forall s t, bytes_ok s -> bytes_ok t -> zlen s = n -> zlen t = n -> W s t <-> s = t) ->
  Forall2 W (chunks (List.length x) n x) (chunks (List.length y) n y) <-> zfirst (n * (zlen x / n)) x = zfirst (n * (zlen y / n)) y.
Proof.
  intros Hn Hx Hy HW. rewrite chunks_forall by auto. split.
  - intros [H1 H2]. rewrite <- (chunks_concat n Hn (List.length x) x), <- (chunks_concat n Hn (List.length y) y) by auto. f_equal.
    apply Forall2_eq. apply chunks_forall; auto. split; auto. intros i Hi. apply HW; auto using sample_bytes, sample_len.
    apply sample_len; auto. rewrite <- H1. exact Hi.
  - intros H. assert (Lx : zlen (zfirst (n * (zlen x / n)) x) = n * (zlen x / n)).
    { assert (0 <= zlen x / n) by (apply Z.div_pos; unfold zlen; lia). pose proof (Z.mul_div_le (zlen x) n Hn). rewrite zlen_zfirst; nia. }
    assert (Ly : zlen (zfirst (n * (zlen y / n)) y) = n * (zlen y / n)).
    { assert (0 <= zlen y / n) by (apply Z.div_pos; unfold zlen; lia). pose proof (Z.mul_div_le (zlen y) n Hn). rewrite zlen_zfirst; nia. }
    assert (E : zlen x / n = zlen y / n) by (rewrite H in Lx; clear - Lx Ly Hn; nia). split; auto.
    intros i Hi. apply HW; auto using sample_bytes, sample_len; [apply sample_len; auto; rewrite <- E; exact Hi|].
    rewrite <- (sample_prefix n i x) by auto. rewrite H. apply sample_prefix; auto. rewrite <- E; exact Hi.
Qed.
Lemma code_size_pos c : 0 < code_size c.
Proof. destruct c; reflexivity. Qed.
Lemma unpack_words c x w : unpack c x = Ok w ->
  w = map (word_of c) (chunks (List.length x) (code_size c) x) /\ (c <> CS24 -> zlen x mod code_size c = 0).
Proof.
  unfold unpack. intros H. destruct c; try (destruct (zlen x mod _ =? 0) eqn:E; [|discriminate]); apply Ok_eq in H; subst w;
    (split; [reflexivity|]); try (intros _; apply Z.eqb_eq; exact E). congruence.
Qed.
Lemma floats_agree n (W S : bytes -> bytes -> Prop) x y : 0 < n -> bytes_ok x -> bytes_ok y -> zlen x mod n = 0 -> zlen y mod n = 0 ->
  (forall s t, bytes_ok s -> bytes_ok t -> zlen s = n -> zlen t = n -> W s t <-> S s t) ->
  Forall2 W (chunks (List.length x) n x) (chunks (List.length y) n y) <->
  zlen x = zlen y /\ forall i, 0 <= i < zlen x / n -> S (sample n i x) (sample n i y).
Proof.
  intros Hn Hx Hy Mx My HW. rewrite chunks_forall by auto. split; intros [A B].
  - split; [rewrite <- (whole n x), <- (whole n y), A by auto; reflexivity|].
    intros i Hi. apply HW; auto using sample_bytes, sample_len. apply sample_len; auto. rewrite <- A; exact Hi.
  - split; [rewrite A; reflexivity|]. intros i Hi. apply HW; auto using sample_bytes, sample_len. apply sample_len; auto. rewrite <- A; exact Hi.
Qed.
Theorem payload_equal c x y wx wy : bytes_ok x -> bytes_ok y -> unpack c x = Ok wx -> unpack c y = Ok wy ->
  ratio_one word_eq wx wy = true <-> payload_agrees (kind_of c) x y.
Proof.
  intros Hx Hy Ux Uy. apply unpack_words in Ux as [-> Mx]. apply unpack_words in Uy as [-> My].
  rewrite ratio_equal by (intros; eauto using word_eq_sym, word_eq_trans). rewrite Forall2_map.
  pose proof (code_size_pos c) as Hn.
  destruct (kind_of c) eqn:K; cbn [payload_agrees].
  - rewrite ints_prefix by (auto; intros; apply word_eq_int; auto). assert (N : c <> CS24) by (intros ->; discriminate K).
    rewrite !whole by auto. rewrite !zfirst_all by lia. reflexivity.
  - rewrite ints_prefix by (auto; intros; apply word_eq_int; auto). destruct c; try discriminate K. reflexivity.
  - destruct c; try discriminate K. apply floats_agree; auto; try (apply Mx; discriminate); try (apply My; discriminate). apply word_eq_single.
  - destruct c; try discriminate K. apply floats_agree; auto; try (apply Mx; discriminate); try (apply My; discriminate). apply word_eq_double.
Qed.
