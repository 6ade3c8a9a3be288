From Coq Require Import String Lia ZifyBool ZifyNat.
From Verif Require Import Base BaseProofs PyValue PyValueProofs Json JsonProofs CogEnums GrainObj Difflib DifflibProofs Compare CompareSpec CompareProofs CompareTree CompareMain CompareTotal.
Local Open Scope list_scope.

(** ** The values of attributes have unique keys. *)
Definition good (v : pv) : Prop := pv_ok v \/ exists n d, v = PFrac n d.
Lemma good_refl v : good v -> py_eq v v = true.
Proof. intros [H|(n & d & ->)]; [apply py_eq_refl, H|]. cbn [py_eq as_q]. rewrite !Z.eqb_refl. reflexivity. Qed.
Lemma frac_comm n d w : py_eq (PFrac n d) w = py_eq w (PFrac n d).
Proof. destruct w; cbn [py_eq as_q]; try reflexivity; rewrite (Z.eqb_sym n), (Z.eqb_sym d); reflexivity. Qed.
Lemma good_comm v w : good v -> good w -> py_eq v w = py_eq w v.
Proof. intros [H|(n & d & ->)] [K|(m & e & ->)]; [apply py_eq_comm; auto|symmetry; apply frac_comm|apply frac_comm|apply frac_comm]. Qed.
Lemma dict_ok d k v : pv_ok (PDict d) -> dget k d = Some v -> pv_ok v.
Proof. intros H E. inversion H as [| | | | | | | | | |? _ F]; subst. apply dget_in in E. rewrite Forall_forall in F. apply (F _ E). Qed.
Lemma list_ok l v : pv_ok (PList l) -> In v l -> pv_ok v.
Proof. intros H E. inversion H as [| | | | | | | | |? F|]; subst. rewrite Forall_forall in F. apply F, E. Qed.
Lemma ditem_good d k v : pv_ok (PDict d) -> ditem k d = Ok v -> pv_ok v.
Proof. unfold ditem. destruct (dget k d) eqn:E; [|discriminate]. intros H K. apply Ok_eq in K. subst. eapply dict_ok; eauto. Qed.
Lemma sub_good x k v : pv_ok x -> sub k x = Ok v -> pv_ok v.
Proof. destruct x; cbn [sub]; try discriminate. apply ditem_good. Qed.
Lemma field_good o k v : meta_ok o -> field k o = Ok v -> pv_ok v.
Proof. intros M H. apply rbind_ok in H as (x & Hx & H). eapply sub_good; [|exact H]. eapply ditem_good; eauto. Qed.
Lemma section_good o s k v : meta_ok o -> in_section s k o = Ok v -> pv_ok v.
Proof. intros M H. apply rbind_ok in H as (x & Hx & H). eapply sub_good; [|exact H]. eapply field_good; eauto. Qed.
Lemma frac_good x v : to_frac x = Ok v -> good v.
Proof.
  unfold to_frac. intros H. apply rbind_ok in H as (n & _ & H). apply rbind_ok in H as (d & _ & H). unfold mk_frac in H.
  destruct (as_q n) as [[a b]|]; [|discriminate H]. destruct (as_q d) as [[c e]|]; [|discriminate H]. unfold frac in H. destruct (b * c =? 0); [discriminate H|].
  apply Ok_eq in H. right. eexists; eexists; symmetry; exact H.
Qed.
Lemma enum_good s k l o v : enum_attr s k l o = Ok v -> good v.
Proof. intros H. apply enum_result in H as [f ->]. left; constructor. Qed.
Lemma uuid_good x v : to_uuid x = Ok v -> good v.
Proof. destruct x; cbn [to_uuid is_text]; try discriminate. intros H. apply Ok_eq in H. subst. left; constructor. Qed.
Lemma time_good x v : to_time x = Ok v -> good v.
Proof. destruct x; cbn [to_time is_text]; try discriminate. intros H. apply Ok_eq in H. subst. left; constructor. Qed.
Lemma maybe_good s k o v : meta_ok o -> maybe s k o = Ok v -> good v.
Proof.
  intros M H. unfold maybe in H. apply rbind_ok in H as (x & Hx & H). apply rbind_ok in H as (d & Hd & H). apply Ok_eq in H. subst v.
  apply field_good in Hx; auto. destruct x; cbn [as_dict] in Hd; try discriminate Hd. apply Ok_eq in Hd. subst. left.
  destruct (dget k d) eqn:E; [eapply dict_ok; eauto|constructor].
Qed.
Lemma maybe_frac_good s k o v : maybe_frac s k o = Ok v -> good v.
Proof.
  intros H. unfold maybe_frac in H. apply rbind_ok in H as (x & Hx & H). apply rbind_ok in H as (d & Hd & H).
  destruct (dget k d); [eapply frac_good; eauto|]. apply Ok_eq in H. subst. left; constructor.
Qed.
Lemma getattr_good o n v : meta_ok o -> getattr o n = Ok v -> good v.
Proof.
  intros M H. unfold getattr in H. destruct (dget n (class_attrs (o_class o) ++ common_attrs)) as [f|] eqn:E; [|discriminate H].
  apply dget_in in E. apply in_app_or in E as [E|E].
  - destruct (o_class o); cbn [class_attrs In] in E;
      repeat match goal with E : _ \/ _ |- _ => destruct E as [E|E] end; try (destruct E; fail);
      (assert (F : f = snd (n, f)) by reflexivity; rewrite <- E in F; cbn [snd] in F; rewrite F in H; clear E F);
      first [eapply enum_good; exact H | left; eapply section_good; eauto; fail | eapply maybe_frac_good; exact H | eapply maybe_good; eauto; fail].
  - cbn [common_attrs In] in E. repeat match goal with E : _ \/ _ |- _ => destruct E as [E|E] end; try (destruct E; fail);
      (assert (F : f = snd (n, f)) by reflexivity; rewrite <- E in F; cbn [snd] in F; rewrite F in H; clear E F).
    + left; eapply field_good; eauto.
    + apply rbind_ok in H as (x & _ & H). eapply uuid_good; eauto.
    + apply rbind_ok in H as (x & _ & H). eapply uuid_good; eauto.
    + apply rbind_ok in H as (x & _ & H). eapply uuid_good; eauto.
    + apply rbind_ok in H as (x & _ & H). eapply time_good; eauto.
    + apply rbind_ok in H as (x & _ & H). eapply time_good; eauto.
    + apply rbind_ok in H as (x & _ & H). eapply time_good; eauto.
    + apply rbind_ok in H as (x & _ & H). eapply frac_good; eauto.
    + apply rbind_ok in H as (x & _ & H). eapply frac_good; eauto.
    + unfold get_length in H. apply rbind_ok in H as (x & _ & H). apply Ok_eq in H. subst v. left; constructor.
Qed.
(** The dictionaries in lists. *)
Definition dict_good (d : dict) : Prop := pv_ok (PDict d).
Lemma map_res_forall {A B} (f : A -> res B) (P : B -> Prop) l r : map_res f l = Ok r -> (forall x y, In x l -> f x = Ok y -> P y) -> Forall P r.
Proof.
  revert r. induction l as [|x l IH]; intros r H K; cbn [map_res] in H.
  - apply Ok_eq in H. subst. constructor.
  - apply rbind_ok in H as (y & Hy & H). apply rbind_ok in H as (s & Hs & H). apply Ok_eq in H. subst r. constructor.
    + eapply K; [left; reflexivity|exact Hy].
    + apply IH; auto. intros x' y' Hx. apply K. right; exact Hx.
Qed.
Lemma dset_good k v d : pv_ok v -> dict_good d -> dict_good (dset k v d).
Proof.
  intros V H. inversion H as [| | | | | | | | | |? N F]; subst. constructor; [apply dset_nodup, N|]. apply dset_forall; auto.
Qed.
Lemma ddefault_good k v d : pv_ok v -> dict_good d -> dict_good (ddefault k v d).
Proof. intros V H. unfold ddefault. destruct (dhas k d); [exact H|apply dset_good; auto]. Qed.
Lemma fill_label_good d e : dict_good d -> fill_label d = Ok e -> dict_good e.
Proof.
  intros H E. unfold fill_label, with_key in E. apply rbind_ok in E as (v & Hv & E). apply rbind_ok in E as (t & Ht & E). apply rbind_ok in E as (t' & Ht' & E).
  apply Ok_eq in E. subst e. apply Ok_eq in Ht'. subst t'.
  assert (H' : dict_good (ddefault $"timelabel" (PDict []) (ddefault $"tag" (PStr []) d))).
  { apply ddefault_good; [constructor; constructor|]. apply ddefault_good; [constructor|exact H]. }
  apply ditem_good in Hv; [|exact H']. destruct v; cbn [as_dict] in Ht; try discriminate Ht. apply Ok_eq in Ht. subst t.
  apply dset_good; auto. repeat (apply ddefault_good; [constructor|]). exact Hv.
Qed.
Lemma labels_good o l : meta_ok o -> labels o = Ok l -> Forall dict_good l.
Proof.
  intros M H. unfold labels in H. apply rbind_ok in H as (v & Hv & H). apply rbind_ok in H as (g & Hg & H).
  apply ditem_good in Hv; auto. destruct v; cbn [as_dict] in Hg; try discriminate Hg. apply Ok_eq in Hg. subst g.
  destruct (dget $"timelabels" d) as [w|] eqn:E; [|apply Ok_eq in H; subst; constructor]. apply rbind_ok in H as (ws & Hws & H).
  apply (dict_ok _ _ _ Hv) in E. destruct w; cbn [as_list] in Hws; try discriminate Hws. apply Ok_eq in Hws. subst ws.
  apply (map_res_forall _ _ _ _ H). intros x y Hx Hy. apply rbind_ok in Hy as (e & He & Hy). eapply fill_label_good; [|exact Hy].
  pose proof (list_ok _ _ E Hx) as G. destruct x; cbn [as_dict] in He; try discriminate He. apply Ok_eq in He. subst e. exact G.
Qed.
Lemma entries_good o l : meta_ok o -> rbind (event_entries o) (map_res as_dict) = Ok l -> Forall dict_good l.
Proof.
  intros M H. apply rbind_ok in H as (vs & Hv & H). unfold event_entries in Hv. apply rbind_ok in Hv as (v & Hv & Hl). apply section_good in Hv; auto.
  destruct v; cbn [as_list] in Hl; try discriminate Hl. apply Ok_eq in Hl. subst vs. apply (map_res_forall _ _ _ _ H). intros x y Hx Hy.
  pose proof (list_ok _ _ Hv Hx) as G. destruct x; cbn [as_dict] in Hy; try discriminate Hy. apply Ok_eq in Hy. subst. exact G.
Qed.

(** ** Reflexivity. *)
Lemma dicts_refl opts id d : dict_good d -> dicts_agree opts id d d.
Proof.
  intros H k [K|K]; (destruct (dget k d) as [v|] eqn:E; [|congruence]); right; exists v, v; split; auto; split; auto; apply py_eq_refl; eapply dict_ok; eauto.
Qed.
Lemma lists_refl {A} opts (el : str -> A -> A -> Prop) id l : (forall i x, In x l -> el i x x) -> lists_agree opts el id l l.
Proof.
  intros H. split; [right; reflexivity|]. intros i Hi. right. destruct (nth_error l i) as [x|] eqn:E; [|apply nth_error_None in E; lia].
  exists x, x. split; auto. split; auto. apply H. eapply nth_error_In; eauto.
Qed.
Lemma expected_refl opts id x : no_matchers opts -> expected opts id (x - x).
Proof. intros [N _]. split; [intros m Hm; destruct (N _ _ Hm)|intros _; lia]. Qed.
Lemma data_refl psnr w u k opts a : no_matchers opts -> can_data psnr w u opts a a -> (forall x, get_data a = Ok (Some x) -> payload_agrees k x x) -> data_agree psnr w k opts a a.
Proof.
  intros [_ N] [_ C] P. right; right. split; [intros _ m; apply N|]. destruct (C (fun _ m => N _ m) a (or_introl eq_refl)) as (d & Hd & _). rewrite Hd.
  destruct d as [x|]; [right|left; auto]. exists x, x. auto.
Qed.
Lemma attr_refl opts o n : meta_ok o -> readable o n -> agree opts o o n.
Proof. intros M [v Hv]. right. exists v, v. split; auto. split; auto. apply good_refl. eapply getattr_good; eauto. Qed.
Theorem compare_refl psnr key opts a r : no_matchers opts -> meta_ok a -> payload_ok a -> no_nan a ->
  compare_with_key psnr key opts a a = Ok r -> r_equal r = true.
Proof.
  intros N M Pa NN H. apply (compare_agree _ _ _ _ _ _ Pa Pa H).
  assert (C : can_compare psnr opts a a) by (apply (compare_total psnr key); exists r; exact H). destruct C as [P T L Y].
  specialize (P a (or_introl eq_refl)). specialize (T a (or_introl eq_refl)). destruct (L a (or_introl eq_refl)) as [l Hl].
  assert (TT : forall n, In n [$"origin_timestamp"; $"sync_timestamp"; $"creation_timestamp"] -> times_agree opts a a n).
  { intros n Hn. right. destruct (T n Hn) as [v Hv]. destruct (time_result a n v Hn Hv) as [t ->]. exists t, t. split; auto. split; auto. apply expected_refl, N. }
  assert (BB : forall x, payload_agrees Bytes x x) by reflexivity.
  constructor.
  - intros n Hn. apply attr_refl; auto. apply P. cbn [In] in *. tauto.
  - left. apply attr_refl; auto. apply P. cbn [In]. tauto.
  - intros n Hn. apply TT. cbn [In] in *. tauto.
  - intros _. apply TT. cbn [In]. tauto.
  - right. exists l, l. split; auto. split; auto. apply lists_refl. intros i x Hx. apply dicts_refl. pose proof (labels_good a l M Hl) as G. rewrite Forall_forall in G. auto.
  - intros t u E1 E2 E3. specialize (Y t u E1 E2 E3). destruct Y as [Y1 Y2 Y3 Y4 Y5 Y6]. constructor; intros X.
    + destruct (Y1 X a (or_introl eq_refl)) as (A & B & d & D). split; [apply attr_refl; auto|]. split; [apply attr_refl; auto|]. right. exists d, d. split; auto. split; auto.
      apply lists_refl. intros i x Hx. apply dicts_refl. pose proof (entries_good a d M D) as G. rewrite Forall_forall in G. auto.
    + destruct (Y2 X) as [A B]. split; [intros n Hn; apply attr_refl; auto|]. intros f F1 F2. eapply data_refl; eauto. intros x Hx. destruct (NN f x F1 Hx) as [S D].
      destruct (audio_kind f) eqn:K; cbn [payload_agrees]; auto; (split; [reflexivity|]); intros i Hi; (split; [|split]); auto.
    + destruct (Y3 X) as [A B]. split; [intros n Hn; apply attr_refl; auto|]. intros f F1 F2. eapply data_refl; eauto.
    + destruct (Y4 X) as [A B]. split; [intros n Hn; apply attr_refl; auto|]. intros f F1 F2. eapply data_refl; eauto.
    + destruct (Y5 X) as [A B]. destruct (A a (or_introl eq_refl)) as (A1 & A2 & ol & A3). split; [|split].
      * intros n Hn. right. assert (Z : readable a n \/ getattr a n = Err EAttr).
        { destruct Hn as [<-|Hn]; [left; exact A1|apply A2, Hn]. }
        destruct Z as [[v Hv]|Z]; [exists v, v; split; [auto|]; split; [auto|]; apply good_refl; eapply getattr_good; eauto|].
        exists PNone, PNone. auto.
      * right. exists ol, ol. split; auto. split; auto. apply lists_refl. intros i x _. apply expected_refl, N.
      * intros f F1 F2. eapply data_refl; eauto.
    + eapply data_refl; eauto.
Qed.

(** ** Symmetry. *)
Lemma same_attr_sym a b n : meta_ok a -> meta_ok b -> same_attr a b n -> same_attr b a n.
Proof. intros Ma Mb (x & y & Hx & Hy & E). exists y, x. split; auto. split; auto. rewrite good_comm; auto; [exact (getattr_good _ _ _ Mb Hy)|exact (getattr_good _ _ _ Ma Hx)]. Qed.
Lemma agree_sym opts a b n : meta_ok a -> meta_ok b -> agree opts a b n -> agree opts b a n.
Proof. intros Ma Mb [H|H]; [left; auto|right; apply same_attr_sym; auto]. Qed.
Lemma expected_sym opts id x y : no_matchers opts -> expected opts id (x - y) -> expected opts id (y - x).
Proof.
  intros [N _] [_ H]. assert (E : x - y = 0) by (apply H; intros m; apply N). split; [intros m Hm; destruct (N _ _ Hm)|intros _; lia].
Qed.
Lemma lists_sym {A} opts (el : str -> A -> A -> Prop) id a b : (forall i x y, In x a -> In y b -> el i x y -> el i y x) -> lists_agree opts el id a b -> lists_agree opts el id b a.
Proof.
  intros S [A1 B]. split; [destruct A1; auto|]. intros i Hi. destruct (B i) as [W|(x & y & X & Y & E)]; [tauto|left; auto|right].
  exists y, x. split; auto. split; auto. apply S; auto; eapply nth_error_In; eauto.
Qed.
Lemma dicts_sym opts id d e : dict_good d -> dict_good e -> dicts_agree opts id d e -> dicts_agree opts id e d.
Proof.
  intros D E H k K. destruct (H k) as [W|(v & w & X & Y & Q)]; [tauto|left; auto|right]. exists w, v. split; auto. split; auto.
  rewrite py_eq_comm; auto; [exact (dict_ok _ _ _ E Y)|exact (dict_ok _ _ _ D X)].
Qed.
Lemma payload_sym k x y : payload_agrees k x y -> payload_agrees k y x.
Proof.
  destruct k; cbn [payload_agrees]; auto; intros [L H]; (split; [auto|]); intros i Hi; rewrite <- L in Hi; destruct (H i Hi) as (A & B & [C|[C D]]); (split; [auto|split; auto]).
Qed.
Lemma data_sym psnr w k opts a b : no_matchers opts -> data_agree psnr w k opts a b -> data_agree psnr w k opts b a.
Proof.
  intros [_ N] [H|[(_ & (m & Hm) & _)|[H P]]]; [left; auto|destruct (N _ _ Hm)|]. right; right. split; auto.
  destruct P as [[P Q]|(x & y & P & Q & R)]; [left; auto|right]. exists y, x. split; auto. split; auto. apply payload_sym, R.
Qed.
Lemma agree_comm psnr opts a b : no_matchers opts -> meta_ok a -> meta_ok b -> grains_agree psnr opts a b -> grains_agree psnr opts b a.
Proof.
  intros N Ma Mb [P L T C B Y].
  assert (TS : forall n, times_agree opts a b n -> times_agree opts b a n).
  { intros n [W|(s & t & S1 & S2 & S3)]; [left; auto|right]. exists t, s. split; auto. split; auto. apply expected_sym; auto. }
  constructor.
  - intros n Hn. apply agree_sym; auto.
  - destruct L as [L|(L1 & L2 & L3)]; [left; apply agree_sym; auto|right; auto].
  - intros n Hn. apply TS; auto.
  - intros I. apply TS; auto.
  - destruct B as [B|(d & e & B1 & B2 & B3)]; [left; auto|right]. exists e, d. split; auto. split; auto.
    pose proof (labels_good _ _ Ma B1) as G. pose proof (labels_good _ _ Mb B2) as G'. rewrite Forall_forall in G, G'.
    apply lists_sym; auto. intros i x y Hx Hy. apply dicts_sym; auto.
  - intros t u E1 E2 E3. assert (Gt : good t) by exact (getattr_good _ _ _ Mb E1). assert (Gu : good u) by exact (getattr_good _ _ _ Ma E2).
    assert (E4 : py_eq u t = true) by (rewrite good_comm; auto). destruct (Y u t E2 E1 E4) as [Y1 Y2 Y3 Y4 Y5 Y6].
    assert (TU : forall s, t = PStr s -> u = PStr s) by (intros s ->; apply py_eq_text, E3).
    assert (UT : forall s, u = PStr s -> t = PStr s) by (intros s ->; apply py_eq_text, E4).
    assert (FS : forall w name k, data_if_format psnr w name k opts a b -> data_if_format psnr w name k opts b a).
    { intros w name k H f F1 F2. apply data_sym; auto. }
    constructor; intros X.
    + destruct (Y1 (TU _ X)) as (A & D & E). split; [apply agree_sym; auto|]. split; [apply agree_sym; auto|].
      destruct E as [E|(d & e & E5 & E6 & E7)]; [left; auto|right]. exists e, d. split; auto. split; auto.
      pose proof (entries_good _ _ Ma E5) as G. pose proof (entries_good _ _ Mb E6) as G'. rewrite Forall_forall in G, G'.
      apply lists_sym; auto. intros i x y Hx Hy. apply dicts_sym; auto.
    + destruct (Y2 (TU _ X)) as [A D]. split; auto. intros n Hn. apply agree_sym; auto.
    + destruct (Y3 (TU _ X)) as [A D]. split; auto. intros n Hn. apply agree_sym; auto.
    + destruct (Y4 (TU _ X)) as [A D]. split; auto. intros n Hn. apply agree_sym; auto.
    + destruct (Y5 (TU _ X)) as (A & D & E). split; [|split; auto].
      * intros n Hn. destruct (A n Hn) as [W|(x & y & Hx & Hy & Q)]; [left; auto|right]. exists y, x. split; auto. split; auto.
        rewrite good_comm; auto; [destruct Hy as [Hy|[_ ->]]|destruct Hx as [Hx|[_ ->]]]; try (left; constructor; fail); [exact (getattr_good _ _ _ Mb Hy)|exact (getattr_good _ _ _ Ma Hx)].
      * destruct D as [D|(x & y & D1 & D2 & D3)]; [left; auto|right]. exists y, x. split; auto. split; auto. apply lists_sym; auto.
        intros i p q _ _. apply expected_sym; auto.
    + apply data_sym; auto. apply Y6. intros F. apply X. apply in_map_iff in F as (s & Q & F). symmetry in Q. apply UT in Q. subst t. apply in_map. exact F.
Qed.
Lemma keys_sym read a b : keys_spelled read a b -> keys_spelled read b a.
Proof. intros H la lb i d e k A B D E K. apply (H lb la i e d k B A E D). apply in_app_iff in K. apply in_app_iff. tauto. Qed.
Lemma can_sym psnr opts a b : no_matchers opts -> meta_ok a -> meta_ok b -> can_compare psnr opts a b -> can_compare psnr opts b a.
Proof.
  intros N Ma Mb [P T L Y KL KE]. pose proof N as [_ NP].
  assert (AB : forall o, o = b \/ o = a -> o = a \/ o = b) by tauto.
  assert (D : forall w u, can_data psnr w u opts a b -> can_data psnr w u opts b a).
  { intros w u [A B]. split; [intros _ [m Hm]; destruct (NP _ _ Hm)|]. intros F o Ho. apply B; auto. }
  constructor; auto; [|apply keys_sym; exact KL|intros X1 X2; apply keys_sym; exact (KE X2 X1)]. intros t u E1 E2 E3. assert (Gt : good t) by exact (getattr_good _ _ _ Mb E1). assert (Gu : good u) by exact (getattr_good _ _ _ Ma E2).
  assert (E4 : py_eq u t = true) by (rewrite good_comm; auto). destruct (Y u t E2 E1 E4) as [Y1 Y2 Y3 Y4 Y5 Y6].
  assert (TU : forall s, t = PStr s -> u = PStr s) by (intros s ->; apply py_eq_text, E3).
  assert (UT : forall s, u = PStr s -> t = PStr s) by (intros s ->; apply py_eq_text, E4).
  assert (FS : forall w name k, can_if_format psnr w name k opts a b -> can_if_format psnr w name k opts b a).
  { intros w name k H f F1 F2. apply D; auto. }
  constructor; intros X.
  - intros o Ho. apply (Y1 (TU _ X) o); auto.
  - destruct (Y2 (TU _ X)); split; auto.
  - destruct (Y3 (TU _ X)); split; auto.
  - destruct (Y4 (TU _ X)); split; auto.
  - destruct (Y5 (TU _ X)); split; auto.
  - apply D, Y6. intros F. apply X. apply in_map_iff in F as (s & Q & F). symmetry in Q. apply UT in Q. subst t. apply in_map. exact F.
Qed.
Theorem compare_sym psnr key opts a b r : no_matchers opts -> meta_ok a -> meta_ok b -> payload_ok a -> payload_ok b ->
  compare_with_key psnr key opts a b = Ok r -> exists r', compare_with_key psnr key opts b a = Ok r' /\ r_equal r' = r_equal r.
Proof.
  intros N Ma Mb Pa Pb H. assert (C : can_compare psnr opts b a) by (apply can_sym; auto; apply (compare_total psnr key); exists r; exact H).
  apply (compare_total psnr key) in C as [r' H']. exists r'. split; auto.
  pose proof (compare_agree _ _ _ _ _ _ Pa Pb H) as E. pose proof (compare_agree _ _ _ _ _ _ Pb Pa H') as E'.
  destruct (r_equal r) eqn:R; destruct (r_equal r') eqn:R'; auto.
  - assert (false = true) by (apply E', agree_comm; auto; apply E; reflexivity). auto.
  - assert (false = true) by (apply E, agree_comm; auto; apply E'; reflexivity). auto.
Qed.

(** ** Pairwise. *)
Lemma loop_spec psnr opts : forall a b n last k l l' last' ok, Forall payload_ok a -> Forall payload_ok b ->
  pairwise_loop psnr opts n last a b = Ok (k, l, l', last', ok) ->
  n <= k /\ pairs_compared (grains_agree psnr opts) a b (Z.to_nat (k - n)) /\ (ok = true <-> Forall2 (grains_agree psnr opts) a b) /\
  (last' = None <-> last = None /\ (a = [] \/ b = [])).
Proof.
  induction a as [|x a IH]; intros b n last k l l' last' ok Pa Pb H.
  - destruct b as [|y b]; cbn [pairwise_loop] in H; apply Ok_eq in H; injection H as <- <- <- <- <-; rewrite Z.sub_diag; (split; [lia|]).
    + split; [split; [cbn; lia|split; [cbn; lia|split; intros; cbn in *; lia]]|]. split; [split; auto; constructor|tauto].
    + split; [split; [cbn; lia|split; [cbn; lia|split; intros; cbn in *; lia]]|]. split; [split; [discriminate|intros F; inversion F]|tauto].
  - destruct b as [|y b]; cbn [pairwise_loop] in H.
    + apply Ok_eq in H; injection H as <- <- <- <- <-; rewrite Z.sub_diag; (split; [lia|]).
      split; [split; [cbn; lia|split; [cbn; lia|split; intros; cbn in *; lia]]|]. split; [split; [discriminate|intros F; inversion F]|tauto].
    + apply rbind_ok in H as (c & Hc & H). inversion Pa as [|? ? Px Pa']; inversion Pb as [|? ? Py Pb']; subst.
      pose proof (compare_agree _ _ _ _ _ _ Px Py Hc) as E. destruct (r_equal c) eqn:R.
      * apply rbind_ok in H as ([[[[k1 l1] l1'] la1] ok1] & H1 & H). apply Ok_eq in H. injection H as <- <- <- <- <-.
        destruct (IH b (n + 1) (Some c) _ _ _ _ _ Pa' Pb' H1) as (Q1 & (Q2 & Q3 & Q4 & Q5) & Q6 & Q7). split; [lia|].
        assert (AG : grains_agree psnr opts x y) by (apply E; reflexivity).
        replace (Z.to_nat (k1 - n)) with (S (Z.to_nat (k1 - (n + 1)))) by lia. split; [|split].
        -- split; [cbn; lia|]. split; [cbn; lia|]. split.
           ++ intros [|i] u v Hi U V; cbn [nth_error] in U, V; [congruence|]. apply (Q4 i); auto. lia.
           ++ intros L1 L2. cbn in L1, L2. destruct Q5 as (i & u & v & I & U & V & W); try lia. exists (S i), u, v. rewrite I. auto.
        -- rewrite Q6. split; [constructor; auto|intros F; inversion F; auto].
        -- rewrite Q7. split; [intros [F _]; discriminate F|intros [_ [F|F]]; discriminate F].
      * apply Ok_eq in H. injection H as <- <- <- <- <-. assert (NA : ~ grains_agree psnr opts x y) by (intros F; apply E in F; discriminate F).
        replace (Z.to_nat (n + 1 - n)) with 1%nat by lia. split; [lia|]. split; [|split].
        -- split; [cbn; lia|]. split; [cbn; lia|]. split; [intros i u v Hi; lia|]. intros _ _. exists 0%nat, x, y. auto.
        -- split; [discriminate|intros F; inversion F; contradiction].
        -- split; [intros F; discriminate F|intros [_ [F|F]]; discriminate F].
Qed.
Theorem pairwise_spec psnr last opts a b r n : Forall payload_ok a -> Forall payload_ok b -> compare_grains_pairwise psnr last opts a b = Ok (r, n) ->
  (r_equal r = true <-> Forall2 (grains_agree psnr opts) a b) /\ 0 <= n /\ pairs_compared (grains_agree psnr opts) a b (Z.to_nat n).
Proof.
  intros Pa Pb H. unfold compare_grains_pairwise in H. apply rbind_ok in H as ([[[[k l] l'] la] ok] & HL & H).
  destruct (loop_spec _ _ _ _ _ _ _ _ _ _ _ Pa Pb HL) as (Q1 & Q2 & Q3 & Q4). rewrite Z.sub_0_r in Q2.
  destruct last; [destruct la as [c|]; [|discriminate H]|]; apply Ok_eq in H; injection H as <- <-; cbn [r_equal]; auto.
Qed.
Lemma loop_fails psnr opts : forall a b n last e, pairwise_loop psnr opts n last a b = Err e ->
  exists i x y key, nth_error a i = Some x /\ nth_error b i = Some y /\ compare_with_key psnr key opts x y = Err e.
Proof.
  induction a as [|x a IH]; intros [|y b] n last e H; cbn [pairwise_loop] in H; try discriminate H.
  destruct (compare_with_key psnr (Some (KIndex n)) opts x y) as [c|e'] eqn:E; cbn [rbind] in H.
  - destruct (r_equal c); [|discriminate H]. destruct (pairwise_loop psnr opts (n + 1) (Some c) a b) as [[[[[k l] l'] la] ok]|e'] eqn:F; cbn [rbind] in H; [discriminate H|].
    assert (e' = e) by congruence. subst e'. destruct (IH _ _ _ _ F) as (i & u & v & key & U & V & W). exists (S i), u, v, key. auto.
  - assert (e' = e) by congruence. subst e'. exists 0%nat, x, y, (Some (KIndex n)). auto.
Qed.
Lemma loop_last psnr opts : forall a b n last k l l' last' ok, pairwise_loop psnr opts n last a b = Ok (k, l, l', last', ok) ->
  (last' = None <-> last = None /\ (a = [] \/ b = [])).
Proof.
  induction a as [|x a IH]; intros [|y b] n last k l l' last' ok H; cbn [pairwise_loop] in H.
  - apply Ok_eq in H; injection H as <- <- <- <- <-. tauto.
  - apply Ok_eq in H; injection H as <- <- <- <- <-. tauto.
  - apply Ok_eq in H; injection H as <- <- <- <- <-. tauto.
  - apply rbind_ok in H as (c & Hc & H). destruct (r_equal c).
    + apply rbind_ok in H as ([[[[k1 l1] l1'] la1] ok1] & H1 & H). apply Ok_eq in H. injection H as <- <- <- <- <-. rewrite (IH _ _ _ _ _ _ _ _ H1).
      split; [intros [F _]; discriminate F|intros [_ [F|F]]; discriminate F].
    + apply Ok_eq in H. injection H as <- <- <- <- <-. split; [intros F; discriminate F|intros [_ [F|F]]; discriminate F].
Qed.
(** Exactly when it raises. *)
Theorem pairwise_total psnr last opts a b :
  (forall i x y, nth_error a i = Some x -> nth_error b i = Some y -> can_compare psnr opts x y) ->
  (exists r, compare_grains_pairwise psnr last opts a b = Ok r) <-> ~ (last = true /\ (a = [] \/ b = [])).
Proof.
  intros C. unfold compare_grains_pairwise. destruct (pairwise_loop psnr opts 0 None a b) as [[[[[k l] l'] la] ok]|e] eqn:F; cbn [rbind].
  - apply loop_last in F. destruct last; [destruct la as [c|]|].
    + split; [intros _ [_ H]|intros _; eexists; reflexivity]. assert (X : Some c = None) by (apply F; auto). discriminate X.
    + split; [intros [r H]; discriminate H|]. intros H. destruct H. split; auto. apply F; reflexivity.
    + split; [intros _ [H _]; discriminate H|intros _; eexists; reflexivity].
  - exfalso. apply loop_fails in F as (i & x & y & key & X & Y & E). specialize (C i x y X Y). apply (compare_total psnr key) in C as [r C]. congruence.
Qed.
Theorem pairwise_unbound psnr opts a b : a = [] \/ b = [] -> compare_grains_pairwise psnr true opts a b = Err EUnbound.
Proof. intros [-> | ->]; [destruct b; reflexivity|destruct a; reflexivity]. Qed.
