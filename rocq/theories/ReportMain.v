From Coq Require Import String Lia ZifyBool ZifyNat.
From Verif Require Import Base BaseProofs PyValue PyValueProofs Json JsonProofs CogEnums GrainObj Difflib DifflibProofs Compare CompareSpec CompareProofs CompareTree CompareMain CompareLaws ReportSpec.
Local Open Scope list_scope.

(** ** Children with the name, the condition and the excuse of each. *)
Inductive tagged (ok : Prop) (E : str -> Prop) : list cres -> list (str * Prop) -> Prop :=
| tg_nil : tagged ok E [] []
| tg_cons n P c l ps : r_attr c = Some n -> r_id c = path n -> (r_equal c = true <-> P) -> (excluded c = true <-> E n) -> tagged ok E l ps ->
    tagged ok E (c :: l) ((n, P) :: ps)
| tg_skip c l ps : ok -> r_attr c = None -> tagged ok E l ps -> tagged ok E (c :: l) ps.
Definition failing_of (l : list cres) : list str :=
  flat_map (fun c => match r_attr c with Some a => if r_equal c then [] else [a] | None => [] end) l.
Lemma tagged_app ok E l ps l' ps' : tagged ok E l ps -> tagged ok E l' ps' -> tagged ok E (l ++ l') (ps ++ ps').
Proof. induction 1; intros H'; cbn [app]; [exact H'|constructor; auto|apply tg_skip; auto]. Qed.
Lemma tagged_one ok E n P c : r_attr c = Some n -> r_id c = path n -> (r_equal c = true <-> P) -> (excluded c = true <-> E n) -> tagged ok E [c] [(n, P)].
Proof. intros. constructor; auto. constructor. Qed.
Lemma tagged_failing ok E l ps : tagged ok E l ps -> forall n, In n (failing_of l) <-> exists P, In (n, P) ps /\ ~ P.
Proof.
  induction 1 as [|m P c l ps A I Q X T IH|c l ps O A T IH]; intros n.
  - split; [intros []|intros (P & [] & _)].
  - unfold failing_of. cbn [flat_map]. fold (failing_of l). rewrite A, in_app_iff, IH. destruct (r_equal c) eqn:R.
    + split.
      * intros [[]|(P' & H & N)]. exists P'. split; [right|]; auto.
      * intros (P' & [H|H] & N); [|right; exists P'; auto]. injection H as -> ->. destruct (N (proj1 Q eq_refl)).
    + split.
      * intros [[<-|[]]|(P' & H & N)]; [exists P; split; [left; reflexivity|]|exists P'; split; [right|]; auto].
        intros p. apply Q in p. congruence.
      * intros (P' & [H|H] & N); [left; left; congruence|right; exists P'; auto].
  - unfold failing_of. cbn [flat_map]. fold (failing_of l). rewrite A. apply IH.
Qed.
Lemma tagged_agree ok E l ps : ~ ok -> tagged ok E l ps -> all_agree l = true <-> forall n, In n (failing_of l) -> E n.
Proof.
  intros NO. induction 1 as [|m P c l ps A I Q X T IH|c l ps O A T IH]; [split; [intros _ n []|reflexivity]| |destruct (NO O)].
  cbn [all_agree forallb]. fold (all_agree l). rewrite andb_true_iff, orb_true_iff, X, IH. unfold failing_of. cbn [flat_map]. fold (failing_of l). rewrite A.
  destruct (r_equal c) eqn:R.
  - split; [intros [_ H]; exact H|intros H; split; auto].
  - split.
    + intros [F H] n [<-|Hn]; [destruct F as [F|F]; [discriminate F|exact F]|apply H, Hn].
    + intros H. split; [right; apply H; left; reflexivity|intros n Hn; apply H; right; exact Hn].
Qed.
Lemma tagged_once ok E l ps : tagged ok E l ps -> NoDup (map fst ps) -> NoDup (failing_of l).
Proof.
  intros T. assert (S : forall n, In n (failing_of l) -> In n (map fst ps)).
  { intros n Hn. apply (tagged_failing _ _ _ _ T) in Hn as (P & Hn & _). apply in_map_iff. exists (n, P); auto. }
  revert S. induction T as [|m P c l ps A I Q X T IH|c l ps O A T IH]; intros S ND.
  - constructor.
  - cbn [map fst] in ND. inversion ND as [|? ? N1 N2]; subst.
    assert (S' : forall n, In n (failing_of l) -> In n (map fst ps)).
    { intros n Hn. apply (tagged_failing _ _ _ _ T) in Hn as (P' & Hn & _). apply in_map_iff. exists (n, P'); auto. }
    unfold failing_of in *. cbn [flat_map] in *. rewrite A in *. destruct (r_equal c); cbn [app] in *; [auto|].
    constructor; [intros F; apply N1, S', F|auto].
  - unfold failing_of in *. cbn [flat_map] in *. rewrite A in *. cbn [app] in *. auto.
Qed.
Lemma tagged_find ok E l ps n : tagged ok E l ps -> NoDup (map fst ps) ->
  match find (fun c => opt_eqb zlist_eqb (r_attr c) (Some n)) l with
  | Some c => r_attr c = Some n /\ r_id c = path n /\ (r_equal c = false <-> In n (failing_of l)) /\ (excluded c = true <-> E n)
  | None => ~ In n (failing_of l)
  end.
Proof.
  induction 1 as [|m P c l ps A I Q X T IH|c l ps O A T IH]; intros ND.
  - intros [].
  - cbn [map fst] in ND. inversion ND as [|? ? N1 N2]; subst. specialize (IH N2).
    assert (S' : In m (failing_of l) -> False).
    { intros Hn. apply (tagged_failing _ _ _ _ T) in Hn as (P' & Hn & _). apply N1, in_map_iff. exists (m, P'); auto. }
    cbn [find]. rewrite A. cbn [opt_eqb]. unfold failing_of. cbn [flat_map]. fold (failing_of l). rewrite A. destruct (zlist_eqb m n) eqn:Z.
    + apply zlist_eqb_eq in Z. subst m. split; auto. split; auto. split; auto. destruct (r_equal c); cbn [app In].
      * split; [discriminate|intros F; destruct (S' F)].
      * split; auto.
    + assert (M : In n ((if r_equal c then [] else [m]) ++ failing_of l) <-> In n (failing_of l)).
      { rewrite in_app_iff. split; [intros [H|H]; auto|auto]. destruct (r_equal c); [destruct H|]. destruct H as [<-|[]]. rewrite zlist_eqb_refl in Z. discriminate Z. }
      destruct (find _ l); rewrite M; exact IH.
  - cbn [find]. rewrite A. cbn [opt_eqb]. unfold failing_of. cbn [flat_map]. fold (failing_of l). rewrite A. exact (IH ND).
Qed.

(** ** The children of a comparison of grains. *)
Definition same_by (get : gobj -> str -> res pv) (a b : gobj) (n : str) : Prop := exists x y, get a n = Ok x /\ get b n = Ok y /\ py_eq x y = true.
Lemma tagged_equalities ok E get O names a b l : (forall n, In n names -> waived O (path n) <-> E n) -> equalities get O names a b = Ok l ->
  tagged ok E l (map (fun n => (n, same_by get a b n)) names).
Proof.
  revert l. induction names as [|n names IH]; intros l W H; cbn [equalities] in H.
  - apply Ok_eq in H. subst l. constructor.
  - apply rbind_ok in H as (x & Hx & H). apply rbind_ok in H as (y & Hy & H). apply rbind_ok in H as (r & Hr & H). apply Ok_eq in H. subst l.
    cbn [map]. constructor; try reflexivity.
    + cbn [equality r_equal]. split; [intros Q; exists x, y; auto|intros (x' & y' & E1 & E2 & Q); congruence].
    + unfold excluded. cbn [equality r_opts r_id]. rewrite excluded_waived. apply W. left; reflexivity.
    + apply IH; [intros m Hm; apply W; right; exact Hm|exact Hr].
Qed.
Definition time_same (opts : list copt) (a b : gobj) (n : str) : Prop :=
  exists s t, getattr a n = Ok (PTime s) /\ getattr b n = Ok (PTime t) /\ expected opts (path n) (s - t).
Lemma tagged_instants ok E O names a b l : (forall n, In n names -> waived O (path n) <-> E n) -> instants O names a b = Ok l ->
  tagged ok E l (map (fun n => (n, time_same O a b n)) names) /\
  (forall n, In n names -> exists s t, getattr a n = Ok (PTime s) /\ getattr b n = Ok (PTime t)).
Proof.
  revert l. induction names as [|n names IH]; intros l W H; cbn [instants] in H.
  - apply Ok_eq in H. subst l. split; [constructor|intros n []].
  - apply rbind_ok in H as (x & Hx & H). apply rbind_ok in H as (y & Hy & H). apply rbind_ok in H as (r & Hr & H). apply Ok_eq in H. subst l.
    apply rbind_ok in Hx as (u & Hu & Hx). apply as_instant_ok in Hx. subst u.
    apply rbind_ok in Hy as (v & Hv & Hy). apply as_instant_ok in Hy. subst v.
    destruct (IH r (fun m Hm => W m (or_intror Hm)) Hr) as [T R]. split.
    + cbn [map]. constructor; try reflexivity; [| |exact T].
      * rewrite (difference_expected (path n) O (Some n) None x y). split; [intros Q; exists x, y; auto|].
        intros (x' & y' & E1 & E2 & Q). rewrite Hu in E1. rewrite Hv in E2. apply Ok_eq in E1. apply Ok_eq in E2. congruence.
      * unfold excluded. cbn [difference r_opts r_id]. rewrite excluded_waived. apply W. left; reflexivity.
    + intros m [<-|Hm]; [exists x, y; auto|apply R, Hm].
Qed.
Lemma tagged_ordered {A} ok E cmp el O n (a b : list A) r : child_of O cmp el -> (waived O (path n) <-> E n) ->
  ordered cmp (path n) O (Some n) a b = Ok r -> tagged ok E [r] [(n, lists_agree O el (path n) a b)].
Proof.
  intros C W H. destruct (ordered_agree _ _ _ _ _ _ _ _ C H) as (I & Oo & Q). apply tagged_one; auto.
  - unfold ordered in H. apply rbind_ok in H as (l & Hl & H). apply Ok_eq in H. subst r. reflexivity.
  - unfold excluded. rewrite I, Oo, excluded_waived. exact W.
Qed.
Lemma tagged_data psnr w c O E a b r : payload_ok a -> payload_ok b -> (waived O (path $"data") <-> E $"data") -> data_child psnr w c O a b = Ok r ->
  exists ps, tagged (psnr_asked O) E [r] ps /\
    ((w = true /\ psnr_asked O /\ ps = []) \/ ((w = true -> ~ psnr_asked O) /\ ps = [($"data", same_payload (kind_of c) O a b)])).
Proof.
  intros Pa Pb W H. unfold data_child in H. destruct (w && _) eqn:F in H.
  - apply andb_true_iff in F as [-> F].
    assert (N : psnr_asked O).
    { destruct (psnr_matchers data_path O) as [|m ms] eqn:G; [discriminate F|]. exists m. apply matchers_in. fold data_path. rewrite G. left; reflexivity. }
    exists []. split; [|left; auto]. apply tg_skip; [exact N| |constructor]. unfold psnr_result in H. destruct (excluded_by O data_path).
    + apply Ok_eq in H. subst r. reflexivity.
    + apply rbind_ok in H as (p & Hp & H). apply Ok_eq in H. subst r. reflexivity.
  - exists [($"data", same_payload (kind_of c) O a b)]. split.
    2: { right. split; auto. intros -> (m & Hm). apply matchers_in in Hm. cbn [andb] in F. fold data_path in Hm. destruct (psnr_matchers data_path O); [destruct Hm|discriminate F]. }
    apply rbind_ok in H as (x & Hx & H). apply rbind_ok in H as (y & Hy & H). unfold data_equality in H.
    apply rbind_ok in H as (u & Hu & H). apply rbind_ok in H as (v & Hv & H). apply Ok_eq in H. subst r.
    apply tagged_one; try reflexivity.
    2: { unfold excluded. cbn [r_opts r_id]. rewrite excluded_waived. exact W. }
    cbn [r_equal]. unfold same_payload. rewrite Hx, Hy. fold data_path. pose proof (excluded_waived O data_path) as XW.
    destruct x as [x|]; cbn [unpack_opt] in Hu.
    + apply rbind_ok in Hu as (wx & Hwx & Hu). apply Ok_eq in Hu. subst u. destruct y as [y|]; cbn [unpack_opt] in Hv.
      * apply rbind_ok in Hv as (wy & Hwy & Hv). apply Ok_eq in Hv. subst v. destruct (excluded_by O data_path).
        -- split; [discriminate|intros [[Q _]|(x' & y' & _ & _ & Q & _)]; [discriminate Q|destruct Q; apply XW; reflexivity]].
        -- rewrite (payload_equal c x y wx wy); auto. split.
           ++ intros Q. right. exists x, y. split; auto. split; auto. split; [intros F'; apply XW in F'; discriminate F'|exact Q].
           ++ intros [[Q _]|(x' & y' & E1 & E2 & _ & Q)]; [discriminate Q|]. apply Ok_eq in E1. apply Ok_eq in E2. congruence.
      * apply Ok_eq in Hv. subst v. split; [discriminate|]. intros [[Q _]|(x' & y' & E1 & E2 & Q)]; [discriminate Q|discriminate E2].
    + apply Ok_eq in Hu. subst u. destruct y as [y|]; cbn [unpack_opt] in Hv.
      * apply rbind_ok in Hv as (wy & Hwy & Hv). apply Ok_eq in Hv. subst v. split; [discriminate|].
        intros [[_ Q]|(x' & y' & E1 & E2 & Q)]; [discriminate Q|discriminate E1].
      * apply Ok_eq in Hv. subst v. split; auto.
Qed.
Lemma tagged_failing_data ok (E : str -> Prop) (O : list copt) : E $"data" -> tagged ok E [failing data_path (O ++ [Exclude $"data"]) (Some $"data") None] [($"data", False)].
Proof.
  intros HE. apply tagged_one; try reflexivity.
  - cbn [failing r_equal]. split; [discriminate|intros []].
  - split; [auto|intros _]. unfold excluded. cbn [failing r_opts r_id]. apply excluded_waived, waived_app. right; left. reflexivity.
Qed.

(** ** Excuses. *)
Lemma path_inj n m : path n = path m -> n = m.
Proof. unfold path. apply app_inv_head. Qed.
Lemma normal_waived opts n : waived (normal opts) (path n) <-> waived opts (path n) \/ (n = $"creation_timestamp" /\ ~ In (Include $"creation_timestamp") opts).
Proof.
  unfold normal. pose proof (has_include_in opts) as I. destruct (has_include opts).
  - split; [auto|intros [W|[_ W]]; [exact W|destruct W; apply I; reflexivity]].
  - rewrite waived_app. split.
    + intros [W|[W|W]]; auto; [right|destruct (no_other_creation _ W)]. apply path_inj in W. split; auto. intros F. apply I in F. discriminate F.
    + intros [W|[-> _]]; auto.
Qed.
Lemma excused_other opts a b n : n <> $"length" -> n <> $"data" -> waived (normal opts) (path n) <-> excused opts a b n.
Proof.
  intros N1 N2. rewrite normal_waived. split.
  - intros [W|[W1 W2]]; [apply exc_waived, W|apply exc_creation; auto].
  - intros [W|W1 W2|m F|F]; auto; contradiction.
Qed.
Lemma not_special l n : In n l -> forallb (fun n => negb (zlist_eqb n $"length") && negb (zlist_eqb n $"data")) l = true -> n <> $"length" /\ n <> $"data".
Proof.
  intros H F. rewrite forallb_forall in F. specialize (F n H). apply andb_true_iff in F as [F1 F2].
  split; intros ->; rewrite zlist_eqb_refl in *; discriminate.
Qed.
Lemma excused_all opts a b l n : forallb (fun n => negb (zlist_eqb n $"length") && negb (zlist_eqb n $"data")) l = true -> In n l ->
  waived (normal opts) (path n) <-> excused opts a b n.
Proof. intros F H. destruct (not_special l n H F). apply excused_other; auto. Qed.
Lemma excused_length opts a b : ~ (both_type a b $"event" /\ exists m, In m [$"event_type"; $"topic"; $"event_data"] /\ waived opts (path m)) ->
  waived (normal opts) (path $"length") <-> excused opts a b $"length".
Proof.
  intros N. rewrite normal_waived. split.
  - intros [W|[W _]]; [apply exc_waived, W|discriminate W].
  - intros [W|W _|m _ T M W|W _]; [auto|discriminate W|destruct N; split; [exact T|exists m; auto]|discriminate W].
Qed.
Lemma excused_data opts a b : ~ incomparable a b -> waived (normal opts) (path $"data") <-> excused opts a b $"data".
Proof.
  intros N. rewrite normal_waived. split.
  - intros [W|[W _]]; [apply exc_waived, W|discriminate W].
  - intros [W|W _|m W|_ W]; [auto|discriminate W|discriminate W|contradiction].
Qed.
Lemma asked_normal opts : psnr_asked (normal opts) <-> psnr_asked opts.
Proof. destruct (normal_eases opts) as (_ & _ & P). split; intros (m & Hm); exists m; apply P, Hm. Qed.
Lemma expected_normal opts id d : expected (normal opts) id d <-> expected opts id d.
Proof. split; [apply (expected_mono is_creation), normal_eases|apply (expected_mono (fun _ => False)), eases_normal]. Qed.
Lemma listed_normal opts n d e : In n [$"timelabels"; $"event_data"; $"unit_offsets"] ->
  lists_agree (normal opts) (dicts_agree (normal opts)) (path n) d e <-> lists_agree opts (dicts_agree opts) (path n) d e.
Proof.
  intros H. split; [apply (listed_mono is_creation); auto using normal_eases, creation_clean|].
  apply (listed_mono (fun _ => False)); auto using eases_normal, nothing_clean.
Qed.
Lemma numbers_normal opts d e :
  lists_agree (normal opts) (numbers_agree (normal opts)) (path $"unit_offsets") d e <-> lists_agree opts (numbers_agree opts) (path $"unit_offsets") d e.
Proof.
  split.
  - apply (lists_mono is_creation); auto using normal_eases; [intros F; discriminate F|intros i F; discriminate F|].
    intros i x y. apply expected_normal.
  - apply (lists_mono (fun _ => False)); auto using eases_normal. intros i x y. apply expected_normal.
Qed.
Lemma payload_normal k opts a b : same_payload k (normal opts) a b <-> same_payload k opts a b.
Proof.
  assert (W : waived (normal opts) (path $"data") <-> waived opts (path $"data")).
  { rewrite normal_waived. split; [intros [W|[W _]]; [exact W|discriminate W]|auto]. }
  unfold same_payload. split; (intros [H|(x & y & H1 & H2 & H3 & H4)]; [left; exact H|right; exists x, y; rewrite W in *; auto]).
Qed.
Lemma tagged_weaken (ok ok' : Prop) E l ps : (ok -> ok') -> tagged ok E l ps -> tagged ok' E l ps.
Proof. intros W. induction 1; [constructor|constructor; auto|apply tg_skip; auto]. Qed.
Definition matched (p q : str * Prop) : Prop := fst p = fst q /\ (snd p <-> snd q).
Lemma tagged_iff ok E l ps qs : tagged ok E l ps -> Forall2 matched ps qs -> tagged ok E l qs.
Proof.
  intros T. revert qs. induction T as [|m P c l ps A I Q X T IH|c l ps O A T IH]; intros qs F.
  - inversion F. constructor.
  - inversion F as [|? [n' P'] ? qs' [F1 F2] F3]; subst. cbn [fst snd] in F1, F2. subst n'. constructor; auto. rewrite Q. exact F2.
  - apply tg_skip; auto.
Qed.
Lemma matched_map (F G : str -> Prop) l : (forall n, In n l -> F n <-> G n) -> Forall2 matched (map (fun n => (n, F n)) l) (map (fun n => (n, G n)) l).
Proof. induction l as [|n l IH]; intros H; cbn [map]; constructor; [split; [reflexivity|apply H; left; reflexivity]|apply IH; intros m Hm; apply H; right; exact Hm]. Qed.
Lemma matched_one n (P Q : Prop) : (P <-> Q) -> Forall2 matched [(n, P)] [(n, Q)].
Proof. constructor; [split; [reflexivity|assumption]|constructor]. Qed.
Fixpoint distinct (l : list str) : bool := match l with [] => true | x :: l => negb (existsb (zlist_eqb x) l) && distinct l end.
Lemma distinct_nodup l : distinct l = true -> NoDup l.
Proof.
  induction l as [|x l IH]; cbn [distinct]; intros H; constructor.
  - intros F. apply andb_true_iff in H as [H _]. apply negb_true_iff in H. assert (G : existsb (zlist_eqb x) l = true); [|congruence].
    apply existsb_exists. exists x. split; [exact F|apply zlist_eqb_refl].
  - apply IH. apply andb_true_iff in H. apply H.
Qed.
Lemma unique_value {A} (l : list (str * A)) k v w : distinct (map fst l) = true -> In (k, v) l -> In (k, w) l -> v = w.
Proof.
  induction l as [|[k' v'] l IH]; cbn [map fst distinct]; intros D; [intros []|].
  apply andb_true_iff in D as [D1 D2]. apply negb_true_iff in D1.
  assert (N : forall u, ~ In (k', u) l).
  { intros u Hu. assert (G : existsb (zlist_eqb k') (map fst l) = true); [|congruence]. apply existsb_exists. exists k'. split; [|apply zlist_eqb_refl].
    apply in_map_iff. exists (k', u); auto. }
  intros [H|H] [G|G]; [congruence| | |apply IH; auto].
  - apply pair_equal_spec in H as [-> _]. destruct (N w G).
  - apply pair_equal_spec in G as [-> _]. destruct (N v H).
Qed.
Lemma type_unique a b t u : has_type a t -> both_type a b u -> u = t.
Proof. unfold has_type. intros H [G _]. unfold has_type in G. rewrite H in G. apply Ok_eq in G. congruence. Qed.
Lemma both_same a b t : both_type a b t -> same_attr a b $"grain_type".
Proof. intros [H G]. exists (PStr t), (PStr t). split; auto. split; auto. apply zlist_eqb_refl. Qed.

(** Reports of two grains of type [t]. *)
Inductive own_of (opts : list copt) (a b : gobj) (t n : str) : Prop :=
| oo_plain names : In (t, names) own_names -> In n names -> ~ same_attr a b n -> own_of opts a b t n
| oo_events d e : t = $"event" -> n = $"event_data" -> rbind (event_entries a) (map_res as_dict) = Ok d -> rbind (event_entries b) (map_res as_dict) = Ok e ->
    ~ lists_agree opts (dicts_agree opts) (path $"event_data") d e -> own_of opts a b t n
| oo_coded : t = $"coded_video" -> In n coded_names -> ~ same_or_none a b n -> own_of opts a b t n
| oo_offsets x y : t = $"coded_video" -> n = $"unit_offsets" -> rbind (offsets a) (map_res as_number) = Ok x -> rbind (offsets b) (map_res as_number) = Ok y ->
    ~ lists_agree opts (numbers_agree opts) (path $"unit_offsets") x y -> own_of opts a b t n
| oo_format name w k f g : n = $"data" -> In (t, (name, w, k)) formats -> getattr a name = Ok (PInt f) -> getattr b name = Ok (PInt g) -> f <> g -> own_of opts a b t n
| oo_data name w k f : n = $"data" -> In (t, (name, w, k)) formats -> getattr a name = Ok (PInt f) -> getattr b name = Ok (PInt f) ->
    (w = true -> ~ psnr_asked opts) -> ~ same_payload (k f) opts a b -> own_of opts a b t n
| oo_unknown : n = $"data" -> ~ In (PStr t) (map PStr known_types) -> ~ same_payload Bytes opts a b -> own_of opts a b t n.
Lemma own_cases opts a b t n : both_type a b t -> reported_own opts a b n <-> own_of opts a b t n.
Proof.
  intros T. pose proof T as [T1 T2]. split.
  - intros [u names m Hu B Hm N|d e B E1 E2 N|m B Hm N|x y B E1 E2 N|[N|u name w k f g Hu B F G N]|u name w k f Hu B F G W N|u Hu S K N];
      try (pose proof (type_unique _ _ _ _ T1 B); subst).
    + eapply oo_plain; eauto.
    + eapply oo_events; eauto.
    + eapply oo_coded; eauto.
    + eapply oo_offsets; eauto.
    + destruct (N (both_same _ _ _ T)).
    + eapply oo_format; eauto.
    + eapply oo_data; eauto.
    + assert (E : PStr t = u) by (unfold has_type in T1; rewrite T1 in Hu; apply Ok_eq in Hu; exact Hu). subst u. apply oo_unknown; auto.
  - intros [names Hn Hm N|d e -> -> E1 E2 N| -> Hm N|x y -> -> E1 E2 N|name w k f g -> Hu F G N|name w k f -> Hu F G W N| -> K N].
    + eapply rep_own; eauto.
    + eapply rep_events; eauto.
    + eapply rep_coded; eauto.
    + eapply rep_offsets; eauto.
    + apply rep_incomparable. eapply inc_format; eauto.
    + eapply rep_data; eauto.
    + eapply rep_unknown; eauto using both_same.
Qed.
Lemma same_comparable a b t : both_type a b t ->
  (forall name w k f g, In (t, (name, w, k)) formats -> getattr a name = Ok (PInt f) -> getattr b name = Ok (PInt g) -> f = g) -> ~ incomparable a b.
Proof.
  intros T H [N|u name w k f g Hu B F G N]; [apply N, (both_same _ _ _ T)|]. destruct T as [T _]. pose proof (type_unique _ _ _ _ T B). subst u.
  apply N. eapply H; eauto.
Qed.
Lemma formats_unique t p q : In (t, p) formats -> In (t, q) formats -> p = q.
Proof. apply unique_value. reflexivity. Qed.
Lemma own_unique t p q : In (t, p) own_names -> In (t, q) own_names -> p = q.
Proof. apply unique_value. reflexivity. Qed.
(** The payload of a type with a format. *)
Definition payload_reported (opts : list copt) (a b : gobj) (t : str) : Prop :=
  exists name w k f g, In (t, (name, w, k)) formats /\ getattr a name = Ok (PInt f) /\ getattr b name = Ok (PInt g) /\
    (f <> g \/ (f = g /\ (w = true -> ~ psnr_asked opts) /\ ~ same_payload (k f) opts a b)).
Lemma ex_app n (ps qs : list (str * Prop)) : (exists P, In (n, P) (ps ++ qs) /\ ~ P) <-> (exists P, In (n, P) ps /\ ~ P) \/ (exists P, In (n, P) qs /\ ~ P).
Proof.
  split.
  - intros (P & H & N). apply in_app_or in H as [H|H]; [left|right]; exists P; auto.
  - intros [(P & H & N)|(P & H & N)]; exists P; split; auto; apply in_or_app; auto.
Qed.
Lemma ex_map n (F : str -> Prop) (names : list str) : (exists P, In (n, P) (map (fun n => (n, F n)) names) /\ ~ P) <-> In n names /\ ~ F n.
Proof.
  split.
  - intros (P & H & N). apply in_map_iff in H as (m & H & Hm). apply pair_equal_spec in H as [-> <-]. auto.
  - intros [H N]. exists (F n). split; auto. apply in_map_iff. exists n; auto.
Qed.
Lemma ex_one (n m : str) (Q : Prop) : (exists P, In (n, P) [(m, Q)] /\ ~ P) <-> n = m /\ ~ Q.
Proof.
  split.
  - intros (P & [H|[]] & N). apply pair_equal_spec in H as [-> <-]. auto.
  - intros [-> N]. exists Q. split; [left; reflexivity|auto].
Qed.
Lemma ex_nil n : (exists P, In (n, P) ([] : list (str * Prop)) /\ ~ P) <-> False.
Proof. split; [intros (P & [] & _)|intros []]. Qed.
Lemma tagged_format psnr w code_for name t k opts a b o' d : payload_ok a -> payload_ok b ->
  In (t, (name, w, k)) formats -> both_type a b t -> (forall o v, getattr o name = Ok v -> exists f, v = PInt f) -> (forall f, kind_of (code_for f) = k f) ->
  format_then_data psnr w code_for name (normal opts) a b = Ok (o', d) ->
  exists ps, tagged (psnr_asked opts) (excused opts a b) [d] ps /\ (ps = [] \/ exists P, ps = [($"data", P)]) /\
    forall n, (exists P, In (n, P) ps /\ ~ P) <-> n = $"data" /\ payload_reported opts a b t.
Proof.
  intros Pa Pb Ht T R K H. unfold format_then_data in H. apply rbind_ok in H as (f & Hf & H). apply rbind_ok in H as (g & Hg & H).
  apply (format_of_ok _ _ _ (R a)) in Hf. apply (format_of_ok _ _ _ (R b)) in Hg.
  assert (U : forall name' w' k' f' g', In (t, (name', w', k')) formats -> getattr a name' = Ok (PInt f') -> getattr b name' = Ok (PInt g') ->
    w' = w /\ k' = k /\ f' = f /\ g' = g).
  { intros name' w' k' f' g' H1 H2 H3. pose proof (formats_unique _ _ _ Ht H1) as E. apply pair_equal_spec in E as [E ->]. apply pair_equal_spec in E as [-> ->].
    rewrite Hf in H2. rewrite Hg in H3. apply Ok_eq in H2. apply Ok_eq in H3. split; auto. split; auto. split; congruence. }
  destruct (f =? g) eqn:E.
  - apply Z.eqb_eq in E. subst g. apply rbind_ok in H as (c & Hc & H). apply Ok_eq in H. apply pair_equal_spec in H as [_ <-].
    assert (NI : ~ incomparable a b).
    { apply (same_comparable _ _ _ T). intros name' w' k' f' g' H1 H2 H3. destruct (U _ _ _ _ _ H1 H2 H3) as (_ & _ & -> & ->). reflexivity. }
    destruct (tagged_data psnr w _ _ (excused opts a b) a b c Pa Pb (excused_data opts a b NI) Hc) as (ps & TG & [(-> & A & ->)|(A & ->)]); rewrite asked_normal in A;
      apply (tagged_weaken _ (psnr_asked opts)) in TG; try apply asked_normal.
    + exists []. split; [exact TG|]. split; [auto|]. intros n. rewrite ex_nil. split; [intros []|].
      intros (_ & name' & w' & k' & f' & g' & H1 & H2 & H3 & H4). destruct (U _ _ _ _ _ H1 H2 H3) as (-> & -> & -> & ->).
      destruct H4 as [H4|(_ & H4 & _)]; [congruence|destruct (H4 eq_refl A)].
    + exists [($"data", same_payload (kind_of (code_for f)) (normal opts) a b)]. split; [exact TG|]. split; [right; eexists; reflexivity|].
      intros n. rewrite ex_one, payload_normal, K. split.
      * intros [-> N]. split; [reflexivity|]. exists name, w, k, f, f. auto 10.
      * intros (-> & name' & w' & k' & f' & g' & H1 & H2 & H3 & H4). split; [reflexivity|]. destruct (U _ _ _ _ _ H1 H2 H3) as (-> & -> & -> & ->).
        destruct H4 as [H4|(_ & _ & H4)]; [congruence|exact H4].
  - apply Ok_eq in H. apply pair_equal_spec in H as [_ <-]. apply Z.eqb_neq in E. exists [($"data", False)].
    split; [apply tagged_failing_data, exc_data; [reflexivity|eapply inc_format; eauto]|]. split; [right; eexists; reflexivity|].
    intros n. rewrite ex_one. split; [|intros [-> _]; split; auto].
    intros [-> _]. split; [reflexivity|]. exists name, w, k, f, g. auto 10.
Qed.
Lemma own_with_format opts a b t names ps n : both_type a b t -> In (t, names) own_names -> t <> $"event" -> t <> $"coded_video" -> In t known_types ->
  (forall n, (exists P, In (n, P) ps /\ ~ P) <-> n = $"data" /\ payload_reported opts a b t) ->
  reported_own opts a b n <-> exists P, In (n, P) (map (fun n => (n, same_attr a b n)) names ++ ps) /\ ~ P.
Proof.
  intros T Hn N1 N2 K HP. rewrite (own_cases opts a b t n T), ex_app, ex_map, HP. split.
  - intros [names' Hn' Hm N|d e F|F|x y F|name w k f g -> Hu F G N|name w k f -> Hu F G W N| -> F]; try contradiction.
    + left. rewrite (own_unique _ _ _ Hn Hn'). auto.
    + right. split; auto. exists name, w, k, f, g. auto 10.
    + right. split; auto. exists name, w, k, f, f. auto 10.
    + destruct F. apply in_map, K.
  - intros [[H N]|(-> & name & w & k & f & g & H1 & H2 & H3 & [H4|(-> & H4 & H5)])].
    + eapply oo_plain; eauto.
    + eapply oo_format; eauto.
    + eapply oo_data; eauto.
Qed.
Lemma event_no_format p : ~ In ($"event", p) formats.
Proof. intros [H|[H|[H|[H|[]]]]]; apply pair_equal_spec in H as [H _]; discriminate H. Qed.
Lemma coded_no_own p : ~ In ($"coded_video", p) own_names.
Proof. intros [H|[H|[H|[H|[]]]]]; apply pair_equal_spec in H as [H _]; discriminate H. Qed.
Lemma tagged_exclude ok (E E' : str -> Prop) l ps : tagged ok E' l ps -> (forall n, In n (map fst ps) -> n <> $"length" -> E' n <-> E n) -> E $"length" ->
  tagged ok E (map exclude_length l) ps.
Proof.
  induction 1 as [|m P c l ps A I Q X T IH|c l ps O A T IH]; intros W L; cbn [map].
  - constructor.
  - destruct c as [i at_ key o e ch]. cbn [r_attr r_id r_equal] in A, I, Q. subst i. cbn [exclude_length].
    assert (T' : tagged ok E (map exclude_length l) ps) by (apply IH; auto; intros n Hn; apply W; right; exact Hn).
    destruct (zlist_eqb (path m) (path $"length")) eqn:Z.
    + apply zlist_eqb_eq, path_inj in Z. subst m. constructor; auto. split; [auto|intros _]. unfold excluded. cbn [r_opts r_id].
      apply excluded_waived, waived_app. right; left. reflexivity.
    + constructor; auto. rewrite X. apply W; [left; reflexivity|]. intros ->. rewrite zlist_eqb_refl in Z. discriminate Z.
  - destruct c as [i at_ key o e ch]. apply tg_skip; auto. cbn [exclude_length]. destruct (zlist_eqb i (path $"length")); exact A.
Qed.

Lemma children_tagged psnr opts a b o' l : payload_ok a -> payload_ok b -> grain_children psnr opts a b = Ok (o', l) ->
  exists ps, tagged (psnr_asked opts) (excused opts a b) l ps /\ NoDup (map fst ps) /\ forall n, reported opts a b n <-> exists P, In (n, P) ps /\ ~ P.
Proof.
  intros Pa Pb H. unfold grain_children in H. fold (normal opts) in H. set (O := normal opts) in *. set (ok := psnr_asked opts). set (E := excused opts a b).
  apply rbind_ok in H as (basic & Hbasic & H). apply rbind_ok in H as (times & Htimes & H).
  apply rbind_ok in H as (la & Hla & H). apply rbind_ok in H as (lb & Hlb & H). apply rbind_ok in H as (tl & Htl & H).
  apply rbind_ok in H as (ta & Hta & H). apply rbind_ok in H as (tb & Htb & H). cbv zeta in H.
  set (LL := lists_agree opts (dicts_agree opts) (path $"timelabels") la lb).
  set (PS := map (fun n => (n, same_attr a b n)) plain_names ++ map (fun n => (n, time_same opts a b n)) time_names ++ [($"timelabels", LL)]).
  assert (TC : forall E', (forall n, In n (plain_names ++ time_names ++ [$"timelabels"]) -> waived O (path n) <-> E' n) ->
    tagged ok E' (basic ++ times ++ [tl]) PS).
  { intros E' W. apply tagged_app; [|apply tagged_app].
    - apply (tagged_equalities ok E' getattr O plain_names a b basic); [|exact Hbasic]. intros n Hn. apply W, in_or_app; auto.
    - destruct (tagged_instants ok E' O time_names a b times) as [T _]; [|exact Htimes|].
      + intros n Hn. apply W, in_or_app; right; apply in_or_app; auto.
      + eapply tagged_iff; [exact T|]. apply matched_map. intros n _. unfold time_same, O. split; intros (s & t & E1 & E2 & X); exists s, t; rewrite expected_normal in *; auto.
    - eapply tagged_iff; [|apply matched_one; apply listed_normal; left; reflexivity].
      apply (tagged_ordered ok E' _ _ O $"timelabels" la lb tl (mapping_child O)); [|exact Htl].
      apply W, in_or_app; right; apply in_or_app; right; left; reflexivity. }
  assert (RC : forall n, reported_common opts a b n <-> exists P, In (n, P) PS /\ ~ P).
  { intros n. unfold PS. rewrite !ex_app, !ex_map, ex_one. split.
    - intros [m Hm N|m s t Hm E1 E2 N|d e E1 E2 N]; [left; auto|right; left|right; right].
      + split; auto. intros (s' & t' & E3 & E4 & X). rewrite E1 in E3. rewrite E2 in E4. apply Ok_eq in E3. apply Ok_eq in E4. apply N. congruence.
      + split; auto. unfold LL. rewrite Hla in E1. rewrite Hlb in E2. apply Ok_eq in E1. apply Ok_eq in E2. subst d e. exact N.
    - intros [[Hm N]|[[Hm N]|[-> N]]].
      + apply rep_plain; auto.
      + destruct (tagged_instants ok (fun n => waived O (path n)) O time_names a b times (fun n _ => iff_refl _) Htimes) as [_ R]. destruct (R n Hm) as (s & t & E1 & E2).
        apply (rep_time _ _ _ _ s t); auto. intros X. apply N. exists s, t. auto.
      + eapply rep_labels; eauto. }
  assert (FIN : forall common rest ps, tagged ok E common PS -> tagged ok E rest ps -> distinct (map fst PS ++ map fst ps) = true ->
    (forall n, reported_own opts a b n <-> exists P, In (n, P) ps /\ ~ P) ->
    exists ps, tagged ok E (common ++ rest) ps /\ NoDup (map fst ps) /\ forall n, reported opts a b n <-> exists P, In (n, P) ps /\ ~ P).
  { intros common rest ps T1 T2 D R. exists (PS ++ ps). split; [apply tagged_app; auto|]. split.
    - rewrite map_app. apply distinct_nodup, D.
    - intros n. rewrite ex_app, <- RC, <- R. reflexivity. }
  assert (NM : map fst PS = plain_names ++ time_names ++ [$"timelabels"]) by reflexivity.
  assert (TN : ~ (both_type a b $"event" /\ exists m, In m [$"event_type"; $"topic"; $"event_data"] /\ waived opts (path m)) -> tagged ok E (basic ++ times ++ [tl]) PS).
  { intros N. apply TC. intros n Hn. unfold plain_names in Hn. cbn [app] in Hn.
    assert (L : n = $"length" \/ n <> $"length" /\ n <> $"data").
    { destruct (zlist_eqb n $"length") eqn:Z; [left; apply zlist_eqb_eq, Z|right]. split; [intros ->; rewrite zlist_eqb_refl in Z; discriminate Z|].
      intros ->.
      repeat (destruct Hn as [Hn|Hn]; [discriminate Hn|]). destruct Hn. }
    destruct L as [->|[L1 L2]]; [apply excused_length, N|apply excused_other; auto]. }
  destruct (py_eq ta tb) eqn:Eq; cbn [negb] in H.
  2: { apply Ok_eq in H. apply pair_equal_spec in H as [_ <-].
       assert (NS : ~ same_attr a b $"grain_type").
       { intros (x & y & E1 & E2 & X). rewrite Hta in E1. rewrite Htb in E2. apply Ok_eq in E1. apply Ok_eq in E2. congruence. }
       assert (NB : forall t, ~ both_type a b t) by (intros t T; apply NS, (both_same _ _ _ T)).
       apply (FIN _ _ [($"data", False)]).
       - apply TN. intros [T _]. exact (NB _ T).
       - apply tagged_failing_data, exc_data; [reflexivity|apply inc_type, NS].
       - reflexivity.
       - intros n. rewrite ex_one. split.
         + intros [u names m Hu B|d e B|m B|x y B|I|u name w k f Hu B|u Hu S]; try destruct (NB _ B); [split; auto|destruct (NS S)].
         + intros [-> _]. apply rep_incomparable, inc_type, NS. }
  destruct (type_is ta $"event") eqn:T1.
  { apply type_is_eq in T1. subst ta. apply py_eq_text in Eq as Etb. subst tb. assert (T : both_type a b $"event") by (split; assumption).
    apply rbind_ok in H as (le & Hle & H). apply rbind_ok in H as (ea & Hea & H). apply rbind_ok in H as (eb & Heb & H). apply rbind_ok in H as (e & He & H).
    cbv zeta in H. apply Ok_eq in H. apply pair_equal_spec in H as [_ <-].
    pose proof (ordered_agree _ _ _ _ _ _ _ _ (mapping_child O) He) as (Ie & Oe & _).
    set (ps := map (fun n => (n, same_attr a b n)) [$"event_type"; $"topic"] ++ [($"event_data", lists_agree opts (dicts_agree opts) (path $"event_data") ea eb)]).
    assert (TR : tagged ok E (le ++ [e]) ps).
    { apply tagged_app.
      - apply (tagged_equalities ok E getattr O _ a b le); [|exact Hle]. intros n. apply excused_all. reflexivity.
      - eapply tagged_iff; [|apply matched_one; apply listed_normal; right; left; reflexivity].
        apply (tagged_ordered ok E _ _ O $"event_data" ea eb e (mapping_child O)); [|exact He]. apply (excused_all opts a b [$"event_data"]); [reflexivity|left; reflexivity]. }
    assert (RO : forall n, reported_own opts a b n <-> exists P, In (n, P) ps /\ ~ P).
    { intros n. rewrite (own_cases opts a b $"event" n T). unfold ps. rewrite ex_app, ex_map, ex_one. split.
      - intros [names Hn Hm N|d d' _ -> E1 E2 N|F|x y F|name w k f g _ Hu|name w k f _ Hu| _ F]; try discriminate F; try destruct (event_no_format _ Hu).
        + left. rewrite (own_unique _ _ _ (or_introl eq_refl : In ($"event", [$"event_type"; $"topic"]) own_names) Hn). auto.
        + right. split; auto. rewrite Hea in E1. rewrite Heb in E2. apply Ok_eq in E1. apply Ok_eq in E2. subst d d'. exact N.
        + destruct F. left. reflexivity.
      - intros [[Hn N]|[-> N]].
        + eapply oo_plain; [left; reflexivity|exact Hn|exact N].
        + eapply oo_events; eauto. }
    assert (SK : existsb (fun c => excluded c) (le ++ [e]) = true <-> exists n, In n [$"event_type"; $"topic"; $"event_data"] /\ waived O (path n)).
    { cbn [equalities] in Hle. apply rbind_ok in Hle as (x1 & _ & Hle). apply rbind_ok in Hle as (y1 & _ & Hle). apply rbind_ok in Hle as (r1 & Hr1 & Hle).
      apply rbind_ok in Hr1 as (x2 & _ & Hr1). apply rbind_ok in Hr1 as (y2 & _ & Hr1). apply rbind_ok in Hr1 as (r2 & Hr2 & Hr1). apply Ok_eq in Hr2. subst r2.
      apply Ok_eq in Hr1. subst r1. apply Ok_eq in Hle. subst le. cbn [app existsb]. unfold excluded. cbn [equality r_opts r_id]. rewrite Ie, Oe.
      rewrite !orb_true_iff, !excluded_waived. split.
      - intros [W|[W|[W|W]]]; [exists $"event_type"|exists $"topic"|exists $"event_data"|discriminate W]; (split; [cbn [In]; tauto|exact W]).
      - intros (n & [<-|[<-|[<-|[]]]] & W); auto. }
    assert (SK' : existsb (fun c => excluded c) (le ++ [e]) = true <-> exists n, In n [$"event_type"; $"topic"; $"event_data"] /\ waived opts (path n)).
    { rewrite SK. split; intros (n & Hn & W); exists n; (split; [exact Hn|]); [|apply normal_waived; auto].
      apply normal_waived in W as [W|[W _]]; [exact W|]. subst n. destruct Hn as [F|[F|[F|[]]]]; discriminate F. }
    apply (FIN _ _ ps); [|exact TR|reflexivity|exact RO].
    destruct (existsb (fun c => excluded c) (le ++ [e])).
    - destruct (proj1 SK' eq_refl) as (m & Hm & W). apply (tagged_exclude ok E (fun n => waived O (path n))).
      + apply TC. reflexivity.
      + intros n Hn L. rewrite NM in Hn. apply excused_other; auto. intros ->. unfold plain_names in Hn. cbn [app] in Hn.
        repeat (destruct Hn as [Hn|Hn]; [discriminate Hn|]). destruct Hn.
      + eapply exc_length; eauto.
    - apply TN. intros [_ M]. apply SK' in M. discriminate M. }
  assert (NE : ~ both_type a b $"event").
  { intros [F _]. unfold has_type in F. rewrite Hta in F. apply Ok_eq in F. subst ta. unfold type_is in T1. cbn [py_eq] in T1. rewrite zlist_eqb_refl in T1. discriminate T1. }
  assert (TG : tagged ok E (basic ++ times ++ [tl]) PS) by (apply TN; intros [F _]; exact (NE F)). clear TN TC.
  assert (NT : forall s, type_is ta s = false -> ta <> PStr s).
  { intros s F G. subst ta. unfold type_is in F. cbn [py_eq] in F. rewrite zlist_eqb_refl in F. discriminate F. }
  assert (SHAPE : forall names (F : str -> Prop) ps, (ps = [] \/ exists P, ps = [($"data", P)]) ->
    distinct (map fst PS ++ names ++ [$"data"]) = true -> distinct (map fst PS ++ names) = true -> distinct (map fst PS ++ map fst (map (fun n => (n, F n)) names ++ ps)) = true).
  { intros names F ps S D1 D2. rewrite map_app, map_map. cbn [fst]. rewrite map_id. destruct S as [->|[P ->]]; [cbn [map]; rewrite app_nil_r; exact D2|exact D1]. }
  assert (FMT : forall t names name w k code_for le d o2, In (t, names) own_names -> In (t, (name, w, k)) formats -> t <> $"event" -> t <> $"coded_video" ->
    In t known_types -> both_type a b t -> (forall o v, getattr o name = Ok v -> exists f, v = PInt f) -> (forall f, kind_of (code_for f) = k f) ->
    forallb (fun n => negb (zlist_eqb n $"length") && negb (zlist_eqb n $"data")) names = true ->
    distinct (map fst PS ++ names ++ [$"data"]) = true -> distinct (map fst PS ++ names) = true ->
    equalities getattr O names a b = Ok le -> format_then_data psnr w code_for name O a b = Ok (o2, d) ->
    exists ps, tagged ok E ((basic ++ times ++ [tl]) ++ le ++ [d]) ps /\ NoDup (map fst ps) /\ forall n, reported opts a b n <-> exists P, In (n, P) ps /\ ~ P).
  { intros t names name w k code_for le d o2 Hn Hf N1 N2 K T R C FB D1 D2 Hle Hd.
    destruct (tagged_format psnr w code_for name t k opts a b o2 d Pa Pb Hf T R C Hd) as (ps & TP & SH & RP).
    apply (FIN _ _ (map (fun n => (n, same_attr a b n)) names ++ ps)); [exact TG| |apply SHAPE; auto|intros n; apply (own_with_format _ _ _ t); auto].
    apply tagged_app; [|exact TP]. apply (tagged_equalities ok E getattr O names a b le); [|exact Hle]. intros n. apply excused_all. exact FB. }
  destruct (type_is ta $"audio") eqn:T2.
  { apply type_is_eq in T2. subst ta. apply py_eq_text in Eq as Etb. subst tb. apply rbind_ok in H as (le & Hle & H). apply rbind_ok in H as ([o2 d] & Hd & H).
    apply Ok_eq in H. apply pair_equal_spec in H as [_ <-].
    eapply (FMT $"audio" _ _ _ _ code_for_audio); [right; left; reflexivity|left; reflexivity|discriminate|discriminate|right; left; reflexivity|split; assumption
      |exact audio_format_result|exact audio_codes|reflexivity|reflexivity|reflexivity|exact Hle|exact Hd]. }
  destruct (type_is ta $"coded_audio") eqn:T3.
  { apply type_is_eq in T3. subst ta. apply py_eq_text in Eq as Etb. subst tb. apply rbind_ok in H as (le & Hle & H). apply rbind_ok in H as ([o2 d] & Hd & H).
    apply Ok_eq in H. apply pair_equal_spec in H as [_ <-].
    eapply (FMT $"coded_audio" _ _ _ _ (fun _ => CB)); [right; right; left; reflexivity|right; left; reflexivity|discriminate|discriminate|right; right; left; reflexivity|split; assumption
      |exact audio_format_result|reflexivity|reflexivity|reflexivity|reflexivity|exact Hle|exact Hd]. }
  destruct (type_is ta $"video") eqn:T4.
  { apply type_is_eq in T4. subst ta. apply py_eq_text in Eq as Etb. subst tb. apply rbind_ok in H as (le & Hle & H). apply rbind_ok in H as ([o2 d] & Hd & H).
    apply Ok_eq in H. apply pair_equal_spec in H as [_ <-].
    eapply (FMT $"video" _ _ _ _ code_for_video); [right; right; right; left; reflexivity|right; right; left; reflexivity|discriminate|discriminate
      |right; right; right; left; reflexivity|split; assumption|exact frame_format_result|exact video_codes|reflexivity|reflexivity|reflexivity|exact Hle|exact Hd]. }
  destruct (type_is ta $"coded_video") eqn:T5.
  { apply type_is_eq in T5. subst ta. apply py_eq_text in Eq as Etb. subst tb. assert (T : both_type a b $"coded_video") by (split; assumption).
    apply rbind_ok in H as (le & Hle & H). apply rbind_ok in H as (oa & Hoa & H). apply rbind_ok in H as (ob & Hob & H).
    apply rbind_ok in H as (u & Hu & H). apply rbind_ok in H as ([o2 d] & Hd & H). apply Ok_eq in H. apply pair_equal_spec in H as [_ <-].
    destruct (tagged_format psnr false (fun _ => CB) $"cog_frame_format" $"coded_video" (fun _ => Bytes) opts a b o2 d Pa Pb) as (ps & TP & SH & RP);
      [right; right; right; left; reflexivity|exact T|exact frame_format_result|reflexivity|exact Hd|].
    set (UO := lists_agree opts (numbers_agree opts) (path $"unit_offsets") oa ob).
    assert (Q : forall n, same_by getattr_or_none a b n <-> same_or_none a b n).
    { intros n. unfold same_by, same_or_none. split; intros (x & y & A & B & C); exists x, y; rewrite !or_none_same in *; auto. }
    apply (FIN _ _ (map (fun n => (n, same_or_none a b n)) coded_names ++ [($"unit_offsets", UO)] ++ ps)).
    - exact TG.
    - apply tagged_app; [|apply tagged_app; [|exact TP]].
      + eapply tagged_iff; [|apply matched_map; intros n _; apply Q].
        apply (tagged_equalities ok E getattr_or_none O coded_names a b le); [|exact Hle]. intros n. apply excused_all. reflexivity.
      + eapply tagged_iff; [|apply matched_one; apply numbers_normal].
        apply (tagged_ordered ok E _ _ O $"unit_offsets" oa ob u (difference_child O)); [|exact Hu]. apply (excused_all opts a b [$"unit_offsets"]); [reflexivity|left; reflexivity].
    - rewrite !map_app, map_map. cbn [fst]. rewrite map_id. destruct SH as [->|[P ->]]; reflexivity.
    - intros n. rewrite (own_cases opts a b $"coded_video" n T), !ex_app, ex_map, ex_one, RP. split.
      + intros [names Hn|d1 d2 F|_ Hm N|x y _ -> E1 E2 N|name w k f g -> Hf F G N|name w k f -> Hf F G W N| _ F].
        * destruct (coded_no_own _ Hn).
        * discriminate F.
        * left; auto.
        * right; left. split; auto. unfold UO. rewrite Hoa in E1. rewrite Hob in E2. apply Ok_eq in E1. apply Ok_eq in E2. subst x y. exact N.
        * right; right. split; auto. exists name, w, k, f, g. auto 10.
        * right; right. split; auto. exists name, w, k, f, f. auto 10.
        * destruct F. do 4 right. left. reflexivity.
      + intros [[Hm N]|[[-> N]|(-> & name & w & k & f & g & H1 & H2 & H3 & [H4|(-> & H4 & H5)])]].
        * apply oo_coded; auto.
        * eapply oo_offsets; eauto.
        * eapply oo_format; eauto.
        * eapply oo_data; eauto. }
  apply rbind_ok in H as (d & Hd & H). apply Ok_eq in H. apply pair_equal_spec in H as [_ <-].
  assert (KN : ~ In ta (map PStr known_types)).
  { cbn [known_types map In]. intros [F|[F|[F|[F|[F|[]]]]]]; symmetry in F; revert F; apply NT; assumption. }
  assert (NB : forall t, In t known_types -> ~ both_type a b t).
  { intros t Ht [F _]. unfold has_type in F. rewrite Hta in F. apply Ok_eq in F. subst ta. apply KN, in_map, Ht. }
  assert (SA : same_attr a b $"grain_type") by (exists ta, tb; auto).
  assert (OT : forall t p, In (t, p) own_names -> In t known_types).
  { intros t p [F|[F|[F|[F|[]]]]]; apply pair_equal_spec in F as [<- _]; cbn [known_types In]; tauto. }
  assert (FT : forall t p, In (t, p) formats -> In t known_types).
  { intros t p [F|[F|[F|[F|[]]]]]; apply pair_equal_spec in F as [<- _]; cbn [known_types In]; tauto. }
  assert (NI : ~ incomparable a b).
  { intros [N|t name w k f g Ht B]; [exact (N SA)|exact (NB t (FT _ _ Ht) B)]. }
  destruct (tagged_data psnr false _ _ E a b d Pa Pb (excused_data opts a b NI) Hd) as (ps & TP & [(F & _)|(_ & ->)]); [discriminate F|].
  apply (tagged_weaken _ ok) in TP; [|apply asked_normal].
  apply (FIN _ _ [($"data", same_payload Bytes opts a b)]); [exact TG| |reflexivity|].
  - eapply tagged_iff; [exact TP|]. apply matched_one. apply payload_normal.
  - intros n. rewrite ex_one. split.
    + intros [u names m Hu B|d1 e1 B|m B|x y B|I|u name w k f Hu B|u Hu S K N].
      * destruct (NB u (OT _ _ Hu) B).
      * destruct (NB $"event"); [cbn [known_types In]; tauto|exact B].
      * destruct (NB $"coded_video"); [cbn [known_types In]; tauto|exact B].
      * destruct (NB $"coded_video"); [cbn [known_types In]; tauto|exact B].
      * destruct (NI I).
      * destruct (NB u (FT _ _ Hu) B).
      * split; auto.
    + intros [-> N]. eapply rep_unknown; eauto.
Qed.

(** ** The report. *)
Theorem report psnr opts a b r n : stored_ok a -> stored_ok b -> compare_grain psnr opts a b = Ok r ->
  In n (failing_attributes r) <-> reported opts a b n.
Proof.
  intros Sa Sb H. unfold compare_grain, compare_with_key in H. apply rbind_ok in H as ([o' l] & Hl & H). apply Ok_eq in H. subst r.
  destruct (children_tagged _ _ _ _ _ _ (stored_payload _ Sa) (stored_payload _ Sb) Hl) as (ps & T & _ & R). rewrite R. apply (tagged_failing _ _ _ _ T).
Qed.
Theorem report_once psnr opts a b r : stored_ok a -> stored_ok b -> compare_grain psnr opts a b = Ok r -> NoDup (failing_attributes r).
Proof.
  intros Sa Sb H. unfold compare_grain, compare_with_key in H. apply rbind_ok in H as ([o' l] & Hl & H). apply Ok_eq in H. subst r.
  destruct (children_tagged _ _ _ _ _ _ (stored_payload _ Sa) (stored_payload _ Sb) Hl) as (ps & T & D & _). apply (tagged_once _ _ _ _ T D).
Qed.
Theorem report_verdict psnr opts a b r : stored_ok a -> stored_ok b -> ~ psnr_asked opts -> compare_grain psnr opts a b = Ok r ->
  r_equal r = true <-> forall n, In n (failing_attributes r) -> excused opts a b n.
Proof.
  intros Sa Sb N H. unfold compare_grain, compare_with_key in H. apply rbind_ok in H as ([o' l] & Hl & H). apply Ok_eq in H. subst r.
  destruct (children_tagged _ _ _ _ _ _ (stored_payload _ Sa) (stored_payload _ Sb) Hl) as (ps & T & _ & _). apply (tagged_agree _ _ _ _ N T).
Qed.
Theorem report_lookup psnr opts a b r n : stored_ok a -> stored_ok b -> compare_grain psnr opts a b = Ok r ->
  match subcomparison_for_attribute n r with
  | Ok c => r_id c = path n /\ (r_equal c = false <-> reported opts a b n) /\ (excluded c = true <-> excused opts a b n)
  | Err e => e = EKey /\ ~ reported opts a b n
  end.
Proof.
  intros Sa Sb H. pose proof (report _ _ _ _ _ n Sa Sb H) as R. unfold compare_grain, compare_with_key in H. apply rbind_ok in H as ([o' l] & Hl & H). apply Ok_eq in H. subst r.
  destruct (children_tagged _ _ _ _ _ _ (stored_payload _ Sa) (stored_payload _ Sb) Hl) as (ps & T & D & _).
  unfold subcomparison_for_attribute. cbn [r_children]. pose proof (tagged_find _ _ _ _ n T D) as F. change (failing_attributes (CR $"{}" None None o' (all_agree l) l)) with (failing_of l) in R.
  destruct (find _ l) as [c|].
  - rewrite <- R. tauto.
  - rewrite <- R. auto.
Qed.
Lemma waived_nothing id : ~ waived [] id.
Proof. intros (p & [] & _). Qed.
Lemma plain_excuse a b n : excused [] a b n -> n = $"creation_timestamp" \/ (n = $"data" /\ incomparable a b).
Proof.
  intros [W|W _|m _ _ _ W|W I]; [destruct (waived_nothing _ W)|auto|destruct (waived_nothing _ W)|auto].
Qed.
Lemma differ_reported opts a b : incomparable a b -> exists n, In n [$"grain_type"; $"cog_audio_format"; $"cog_frame_format"] /\ reported opts a b n.
Proof.
  intros [N|t name w k f g Ht T F G N].
  - exists $"grain_type". split; [cbn [In]; tauto|]. left. apply rep_plain; [left; reflexivity|exact N].
  - assert (NS : ~ same_attr a b name).
    { intros (x & y & E1 & E2 & X). rewrite F in E1. rewrite G in E2. apply Ok_eq in E1. apply Ok_eq in E2. subst x y. cbn [py_eq as_q] in X. lia. }
    exists name. destruct Ht as [E|[E|[E|[E|[]]]]]; apply pair_equal_spec in E as [<- E]; apply pair_equal_spec in E as [E _]; apply pair_equal_spec in E as [<- _];
      (split; [cbn [In]; tauto|right]).
    + eapply rep_own; [right; left; reflexivity|exact T|left; reflexivity|exact NS].
    + eapply rep_own; [right; right; left; reflexivity|exact T|left; reflexivity|exact NS].
    + eapply rep_own; [right; right; right; left; reflexivity|exact T|left; reflexivity|exact NS].
    + apply rep_coded; [exact T|left; reflexivity|]. intros (x & y & [E1|[E1 _]] & [E2|[E2 _]] & X); try congruence. apply NS. exists x, y; auto.
Qed.
Theorem report_strict psnr a b r : stored_ok a -> stored_ok b -> compare_grain psnr [] a b = Ok r ->
  r_equal r = true <-> forall n, In n (failing_attributes r) -> n = $"creation_timestamp".
Proof.
  intros Sa Sb H. assert (N : ~ psnr_asked []) by (intros (m & [])). rewrite (report_verdict psnr [] a b r Sa Sb N H). split.
  - intros E n Hn. destruct (plain_excuse _ _ _ (E n Hn)) as [X|[_ I]]; [exact X|exfalso].
    destruct (differ_reported [] a b I) as (m & Hm & R). apply (report _ _ _ _ _ m Sa Sb H) in R. apply E in R.
    destruct (plain_excuse _ _ _ R) as [X|[X _]]; subst m; destruct Hm as [F|[F|[F|[]]]]; discriminate F.
  - intros E n Hn. apply exc_creation; [apply E, Hn|intros []].
Qed.
