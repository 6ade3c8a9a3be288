From Coq Require Import String Lia ZifyBool ZifyNat.
From Verif Require Import Base BaseProofs GsfPrim GsfDecode PyValue PyValueProofs Json JsonProofs PyList PyListProofs GrainObj Event Lists GrainSet GrainSetSpec GrainSetShape GrainCopy GrainGsf Compare CompareSpec
  CompareProofs CompareTree CompareMain CompareTotal CompareSym CompareExample StrategyCompared Utf8 Utf8Proofs EventMain PyValue GrainObj LifeSpec LifeProofs LifeRead.
Local Open Scope list_scope.

(** ** What is made. *)
Lemma comps_good l : pv_ok (PList (map comp_dict l)).
Proof. apply list_good, Forall_map, Forall_forall. intros c _. apply ok_dict; [keys|]. repeat constructor. Qed.
Lemma made_good o : made o -> meta_ok o.
Proof.
  intros [c now m a o' M E|now m a o' M E|now k a o' E|now k fmt w h layout a o' E|now k fmt ow oh cw ch key temporal len layout offs a o' E|now k fmt samples channels rate a o' E
         |now k fmt samples channels priming remainder rate len a o' E|now k kind topic a o' E].
  - exact (init_good c now m a o' M E).
  - exact (factory_good now m a o' M E).
  - unfold kw_factory in E. destruct (k_src k) eqn:K1; [|discriminate E]. destruct (k_flow k) eqn:K2; [|discriminate E].
    refine (new_good _ _ _ _ _ E). apply grain_meta_ok; [keys|constructor].
  - refine (video_good _ _ _ _ _ _ (comps_good _) _ E). apply grain_meta_ok; [keys|]. constructor; [|constructor]. apply dict_ok_of; [keys|]. repeat constructor.
  - refine (coded_video_good _ _ _ _ _ _ _ _ E).
    + intros x X. destruct offs as [l|]; [|discriminate X]. assert (x = map PInt l) by congruence. subst x. apply Forall_map, Forall_forall. intros z _. constructor.
    + apply grain_meta_ok; [keys|]. constructor; [|constructor]. destruct key, temporal; (apply dict_ok_of; [keys|]; repeat constructor).
  - refine (audio_good _ _ _ _ _ _ E). apply grain_meta_ok; [keys|]. constructor; [|constructor]. apply dict_ok_of; [keys|]. repeat constructor.
  - refine (coded_audio_good _ _ _ _ _ _ E). apply grain_meta_ok; [keys|]. constructor; [|constructor]. apply dict_ok_of; [keys|]. repeat constructor.
  - refine (event_good _ _ _ _ _ E). apply grain_meta_ok; [keys|]. constructor; [|constructor]. apply dict_ok_of; [keys|]. repeat constructor.
Qed.
Lemma zeros_bytes n : bytes_ok (zeros n). Proof. apply Forall_forall. intros x X. unfold zeros in X. apply repeat_spec in X. subst. unfold byte_ok. lia. Qed.
Lemma or_zeros_ok n a b : arg_ok a -> or_zeros n a = Ok b -> arg_ok b.
Proof. intros A E. destruct a; cbn [or_zeros] in E; try (apply Ok_eq in E; subst; exact A). destruct (n <? 0); [discriminate E|]. apply Ok_eq in E. subst. apply zeros_bytes. Qed.
Lemma grain_obj_stored c m a : arg_ok a -> stored_ok (grain_obj c m a).
Proof. intros A x X. destruct a; cbn [grain_obj o_data] in X; try discriminate X. assert (b = x) by congruence. subst. exact A. Qed.
Lemma init_stored c now m a o : arg_ok a -> init c now m a = Ok o -> stored_ok o.
Proof.
  intros A E. destruct c; cbn [init] in E.
  - unfold new_grain in E. binds E. apply Ok_eq in E. subst. apply grain_obj_stored, A.
  - unfold video_init in E. binds E. apply Ok_eq in E. subst. apply grain_obj_stored. exact (or_zeros_ok _ _ _ A X).
  - unfold coded_video_init in E. binds E. apply Ok_eq in E. subst. apply grain_obj_stored. exact (or_zeros_ok _ _ _ A X).
  - unfold audio_init in E. binds E. apply Ok_eq in E. subst. apply grain_obj_stored. exact (or_zeros_ok _ _ _ A X).
  - unfold coded_audio_init in E. binds E. apply Ok_eq in E. subst. apply grain_obj_stored. exact (or_zeros_ok _ _ _ A X).
  - unfold event_init in E. binds E. apply Ok_eq in E. subst. intros y H. discriminate H.
Qed.
Lemma factory_stored now m a o : arg_ok a -> GrainFactory now m a = Ok o -> stored_ok o.
Proof. intros A E. unfold GrainFactory in E. apply rbind_ok in E as (c & _ & E). exact (init_stored c now m a o A E). Qed.
(** ** Where things are. *)
Definition has_dict (p : str) (g : dict) : Prop := exists d, dget p g = Some (PDict d).
Definition dict_at (p : option str) (m : dict) : Prop := exists g, dget $"grain" m = Some (PDict g) /\ forall s, p = Some s -> has_dict s g.
Definition shape (o : gobj) : Prop := dict_at (part_of (o_class o)) (o_meta o).
Definition no_part (k : str) : Prop := forall c, part_of c <> Some k.
Definition same_else (o o' : gobj) : Prop := o_data o' = o_data o /\ o_class o' = o_class o /\ (shape o -> shape o').
Lemma same_refl o : same_else o o. Proof. repeat split; auto. Qed.
Lemma same_trans a b c : same_else a b -> same_else b c -> same_else a c. Proof. intros (A & B & C) (D & E & F). repeat split; auto; congruence. Qed.
Lemma has_set p k v g : k <> p -> has_dict p g -> has_dict p (dset k v g).
Proof. intros N [d D]. exists d. rewrite dget_set_other; auto. Qed.
Lemma has_del p k g : k <> p -> has_dict p g -> has_dict p (ddel k g).
Proof. intros N [d D]. exists d. rewrite dget_del_other; auto. Qed.
Lemma has_put p k d g : has_dict p g -> has_dict p (dset k (PDict d) g).
Proof. intros H. destruct (zlist_eqb k p) eqn:E; [apply zlist_eqb_eq in E; subst; exists d; apply dget_set_same|]. apply zlist_eqb_neq in E. apply has_set; assumption. Qed.
Lemma with_has p k f g g' : has_dict p g -> with_key k f g = Ok g' -> has_dict p g'.
Proof. intros H E. unfold with_key in E. binds E. apply Ok_eq in E. subst. apply has_put, H. Qed.
Lemma with_at p f m m' : (forall s g g', has_dict s g -> p = Some s -> f g = Ok g' -> has_dict s g') -> dict_at p m -> with_key $"grain" f m = Ok m' -> dict_at p m'.
Proof.
  intros F (g & G & H) E. unfold with_key, ditem in E. rewrite G in E. cbn [rbind as_dict] in E. binds E. apply Ok_eq in E. subst. exists x. split; [apply dget_set_same|]. intros s S. exact (F s g x (H s S) S X).
Qed.
Lemma same_put o g g' : rbind (ditem $"grain" (o_meta o)) as_dict = Ok g -> (forall s, part_of (o_class o) = Some s -> has_dict s g -> has_dict s g') ->
  same_else o (mkO (o_class o) (dset $"grain" (PDict g') (o_meta o)) (o_data o) (o_wait o)).
Proof.
  intros G F. repeat split; auto. intros (x & X & H). unfold ditem in G. rewrite X in G. cbn [rbind as_dict] in G. apply Ok_eq in G. subst x. exists g'. cbn [o_meta o_class]. split; [apply dget_set_same|]. intros s S. exact (F s S (H s S)).
Qed.
Lemma same_with f o m : (forall s g g', has_dict s g -> part_of (o_class o) = Some s -> f g = Ok g' -> has_dict s g') -> with_key $"grain" f (o_meta o) = Ok m -> same_else o (with_meta m o).
Proof. intros F E. repeat split; auto. intros H. unfold shape. cbn [with_meta o_class o_meta]. exact (with_at _ f _ _ F H E). Qed.

(** ** Assigning attributes. *)
Lemma str_keeps : keeps_value str_of.
Proof. intros v w H E. destruct v; cbn [str_of is_text] in E; try discriminate E; apply Ok_eq in E; subst; try exact H; constructor. Qed.
Lemma mk_frac_good v w : mk_frac v (PInt 1) = Ok w -> exists n d, w = PFrac n d.
Proof.
  intros E. unfold mk_frac in E.
  repeat match type of E with
  | (match ?b with _ => _ end) = _ => destruct b
  | (let '(_, _) := ?b in _) = _ => destruct b
  end; try discriminate E; unfold frac in E; destruct (_ =? 0); try discriminate E; apply Ok_eq in E; subst; eauto.
Qed.
Lemma frac_of_keeps : keeps_value frac_of.
Proof. intros v w H E. unfold frac_of in E. apply rbind_ok in E as (x & X & E). apply mk_frac_good in X as (n & d & ->). cbn [dict_of_frac] in E. apply Ok_eq in E. subst. apply frac_good_dict. Qed.
Lemma ok_keeps : keeps_value Ok. Proof. intros v w H E. apply Ok_eq in E. subst. exact H. Qed.
Lemma int_of_keeps : keeps_value int_of. Proof. exact int_keeps. Qed.
Lemma flag_keeps : keeps_value (fun v => Ok (PBool (truthy v))). Proof. intros v w H E. apply Ok_eq in E. subst. constructor. Qed.
Definition setter_good (f : setter) : Prop := forall v o o', pv_ok v -> meta_ok o -> f v o = Ok o' -> meta_ok o' /\ same_else o o'.
Lemma put_field_good k v o o' : no_part k -> pv_ok v -> meta_ok o -> put_field k v o = Ok o' -> meta_ok o' /\ same_else o o'.
Proof.
  intros K V M E. unfold put_field in E. apply rbind_ok in E as (m & H & E). apply Ok_eq in E. subst o'. split.
  - unfold meta_ok. cbn [with_meta o_meta]. revert H. apply with_key_good; [|exact M]. intros x y X Y. apply Ok_eq in Y. subst. apply dset_good; assumption.
  - apply (same_with _ o m) in H; [exact H|]. intros s g g' G S Y. apply Ok_eq in Y. subst. apply has_set; [|exact G]. intros ->. exact (K _ S).
Qed.
Lemma put_in_good s k v o o' : pv_ok v -> meta_ok o -> put_in s k v o = Ok o' -> meta_ok o' /\ same_else o o'.
Proof.
  intros V M E. unfold put_in in E. apply rbind_ok in E as (m & H & E). apply Ok_eq in E. subst o'. split.
  - unfold meta_ok. cbn [with_meta o_meta]. revert H. apply with_key_good; [|exact M]. apply with_key_good. intros x y X Y. apply Ok_eq in Y. subst. apply dset_good; assumption.
  - apply (same_with _ o m) in H; [exact H|]. intros p g g' G _ Y. exact (with_has _ _ _ _ _ G Y).
Qed.
Lemma drop_in_good s k o o' : meta_ok o -> drop_in s k o = Ok o' -> meta_ok o' /\ same_else o o'.
Proof.
  intros M E. unfold drop_in in E. destruct (rbind _ _) as [x|e] eqn:B.
  - apply Ok_eq in E. subst x. apply rbind_ok in B as (m & H & E). apply Ok_eq in E. subst o'. split.
    + unfold meta_ok. cbn [with_meta o_meta]. revert H. apply with_key_good; [|exact M]. apply with_key_good. intros x y X Y. apply rbind_ok in Y as (z & _ & Y). apply Ok_eq in Y. subst. apply ddel_good, X.
    + apply (same_with _ o m) in H; [exact H|]. intros p g g' G _ Y. exact (with_has _ _ _ _ _ G Y).
  - destruct e; try discriminate E. apply Ok_eq in E. subst. split; [exact M|apply same_refl].
Qed.
Lemma field_setter_good k f : no_part k -> keeps_value f -> setter_good (field_setter k f).
Proof. intros K F v o o' V M E. unfold field_setter in E. apply rbind_ok in E as (w & W & E). exact (put_field_good k w o o' K (F v w V W) M E). Qed.
Lemma part_setter_good s k f : keeps_value f -> setter_good (part_setter s k f).
Proof. intros F v o o' V M E. unfold part_setter in E. apply rbind_ok in E as (w & W & E). exact (put_in_good s k w o o' (F v w V W) M E). Qed.
Lemma maybe_setter_good s k f : keeps_value f -> setter_good (maybe_setter s k f).
Proof. intros F v o o' V M E. destruct v; try exact (part_setter_good s k f F _ o o' V M E). exact (drop_in_good s k o o' M E). Qed.
Lemma setters_good c : Forall (fun nf : str * setter => setter_good (snd nf)) (class_setters c ++ common_setters).
Proof.
  apply Forall_app. split.
  - destruct c; unfold class_setters; repeat (apply Forall_cons; [cbn [snd]; first [apply part_setter_good | apply maybe_setter_good]; first [exact ok_keeps|exact int_of_keeps|exact frac_of_keeps|exact flag_keeps]|]); constructor.
  - unfold common_setters. repeat (apply Forall_cons; [cbn [snd]; apply field_setter_good; [intros c'; destruct c'; vm_compute; discriminate|]; first [exact ok_keeps|exact str_keeps|exact time_keeps|exact frac_of_keeps]|]). constructor.
Qed.
Lemma set_attr_good n v o o' : pv_ok v -> meta_ok o -> set_attr n v o = Ok o' -> meta_ok o' /\ same_else o o'.
Proof.
  intros V M E. unfold set_attr in E. destruct (dget n _) as [f|] eqn:D; [|discriminate E]. pose proof (setters_good (o_class o)) as S. rewrite Forall_forall in S.
  apply dget_in in D. exact (S _ D v o o' V M E).
Qed.
Lemma set_data_good a o o' : arg_ok a -> meta_ok o -> stored_ok o -> set_data a o = Ok o' -> meta_ok o' /\ stored_ok o' /\ (shape o -> shape o').
Proof.
  intros A M S E. unfold set_data in E. destruct (o_class o) eqn:K.
  1-5: apply Ok_eq in E; subst o'; destruct a; (split; [exact M|]); (split; [|unfold shape; cbn [o_class o_meta]; rewrite K; trivial]); intros x X; try discriminate X; assert (b = x) by (cbn [o_data] in X; congruence); subst; exact A.
  destruct a as [|b|]; try discriminate E. apply rbind_ok in E as (m & H & E). apply Ok_eq in E. subst o'. split; [|split; [exact S|]].
  - unfold meta_ok. cbn [with_meta o_meta]. revert H. apply with_key_good; [|exact M]. apply with_key_good. intros x y X Y. exact (raising_good b x y X Y).
  - apply (same_with _ o m) in H; [exact (proj2 (proj2 H))|]. intros p g g' G _ Y. exact (with_has _ _ _ _ _ G Y).
Qed.
Lemma set_length_good n o o' : GrainSet.set_length n o = Ok o' -> o_meta o' = o_meta o /\ o_class o' = o_class o /\ o_data o' = None.
Proof. intros E. unfold GrainSet.set_length in E. apply rbind_ok in E as (d & D & E). destruct d; [discriminate E|]. destruct (o_wait o); [|discriminate E]. apply Ok_eq in E. subst. auto. Qed.

(** ** Events. *)
Lemma edit_good f o : (forall d, dict_good d -> dict_good (fst (f d))) -> meta_ok o -> meta_ok (fst (edit f o)) /\ same_else o (fst (edit f o)).
Proof.
  intros F M. unfold edit. destruct (rbind (ditem $"grain" (o_meta o)) as_dict) as [g|e] eqn:G; [|split; [exact M|apply same_refl]]. destruct (rbind (ditem $"event_payload" g) as_dict) as [d|e] eqn:D; [|split; [exact M|apply same_refl]].
  pose proof G as G'. apply rbind_ok in G as (v & V & G). pose proof (as_dict_good _ _ (ditem_good _ _ _ M V) G) as GG. apply rbind_ok in D as (w & W & D). pose proof (as_dict_good _ _ (ditem_good _ _ _ GG W) D) as DG.
  specialize (F d DG). destruct (f d) as [d' x]. cbn [fst] in *. split.
  - unfold meta_ok. cbn [o_meta]. apply dset_good; [|exact M]. apply dset_good; [exact F|exact GG].
  - apply (same_put o g); [exact G'|]. intros s _. apply has_put.
Qed.
Lemma edit_list_good f o : (forall l r, Forall pv_ok l -> f l = Ok r -> Forall pv_ok r) -> meta_ok o -> meta_ok (fst (edit_list f o)) /\ same_else o (fst (edit_list f o)).
Proof.
  intros F. apply edit_good. intros d D. destruct (rbind (rbind (ditem $"data" d) as_list) f) as [r|e] eqn:R; [|exact D]. cbn [fst]. apply rbind_ok in R as (l & L & R).
  apply rbind_ok in L as (v & V & L). apply dset_good; [|exact D]. apply list_good, (F l r); [|exact R]. exact (as_list_good _ _ (ditem_good _ _ _ D V) L).
Qed.
Lemma zfirst_forall {A} (P : A -> Prop) l : forall n, Forall P l -> Forall P (zfirst n l).
Proof. induction l as [|x l IH]; intros n F; cbn [zfirst]; [constructor|]. inversion F; subst. destruct (n <=? 0); [constructor|]. constructor; auto. Qed.
Lemma zskip_forall {A} (P : A -> Prop) l : forall n, Forall P l -> Forall P (zskip n l).
Proof. induction l as [|x l IH]; intros n F; cbn [zskip]; [constructor|]. inversion F; subst. destruct (n <=? 0); [exact F|]. auto. Qed.
Lemma lget_forall {A} (P : A -> Prop) l i x : Forall P l -> lget l i = Ok x -> P x.
Proof.
  intros F E. unfold lget in E. destruct (py_idx (zlen l) i) as [j|]; [|discriminate E]. apply (zskip_forall P l j) in F. destruct (zskip j l); [discriminate E|]. apply Ok_eq in E. subst. inversion F. assumption.
Qed.
Lemma lput_forall {A} (P : A -> Prop) l i x r : Forall P l -> P x -> lput l i x = Ok r -> Forall P r.
Proof.
  intros F H E. unfold lput in E. destruct (py_idx (zlen l) i) as [j|]; [|discriminate E]. apply Ok_eq in E. subst. apply Forall_app. split; [apply zfirst_forall, F|]. constructor; [exact H|apply zskip_forall, F].
Qed.
Lemma edit_entry_good i f o : keeps_dict f -> meta_ok o -> meta_ok (fst (edit_entry i f o)) /\ same_else o (fst (edit_entry i f o)).
Proof.
  intros F. apply edit_list_good. intros l r L R. apply rbind_ok in R as (v & V & R). apply rbind_ok in R as (e & E & R). apply rbind_ok in R as (e' & E' & R).
  apply (lput_forall pv_ok l i (PDict e') r L); [|exact R]. apply (F e e'); [|exact E']. exact (as_dict_good _ _ (lget_forall pv_ok l i v L V) E).
Qed.
Lemma put_key_good k v : pv_ok v -> keeps_dict (put_key k v). Proof. intros V d e D E. apply Ok_eq in E. subst. apply dset_good; assumption. Qed.
Lemma del_key_good k : keeps_dict (del_key k). Proof. intros d e D E. unfold del_key in E. destruct (dhas k d); [|discriminate E]. apply Ok_eq in E. subst. apply ddel_good, D. Qed.
Lemma apply_good op o : eop_good op -> meta_ok o -> meta_ok (fst (apply_op op o)) /\ same_else o (fst (apply_op op o)).
Proof.
  intros G. destruct op as [b|v|v|p x y|l|i k v|i k|i v|i v|i v]; cbn [eop_good apply_op] in *.
  - apply edit_good. intros d. apply set_payload_good.
  - apply edit_good. intros d D. apply dset_good; assumption.
  - apply edit_good. intros d D. apply dset_good; assumption.
  - destruct G as (P & X & Y). apply edit_list_good. intros l r L R. apply Ok_eq in R. subst. apply Forall_app. split; [exact L|]. constructor; [|constructor].
    assert (B : dict_good [($"path", p)]) by (apply ok_dict; [constructor; [intros []|constructor]|constructor; [exact P|constructor]]).
    unfold new_entry. assert (B2 : dict_good (match x with PNone => [($"path", p)] | _ => dset $"pre" x [($"path", p)] end)) by (destruct x; try exact B; apply dset_good; assumption).
    destruct y; try exact B2; apply dset_good; assumption.
  - apply edit_good. intros d D. apply dset_good; [|exact D]. apply list_good, Forall_map. exact G.
  - apply edit_entry_good, put_key_good, G.
  - apply edit_entry_good, del_key_good.
  - apply edit_entry_good, put_key_good, G.
  - apply edit_entry_good. destruct v; try (apply put_key_good, G). apply del_key_good.
  - apply edit_entry_good. destruct v; try (apply put_key_good, G). intros d e D E. cbn [put_post] in E. destruct (dhas $"post" d); apply Ok_eq in E; subst; [apply ddel_good, D|exact D].
Qed.

(** ** Lists. *)
Definition keeps {A} (P : A -> Prop) (m : act A) : Prop := forall o, meta_ok o -> meta_ok (fst (m o)) /\ same_else o (fst (m o)) /\ forall a, snd (m o) = Ok a -> P a.
Lemma norm_good k v w : pv_ok v -> norm k v = Ok w -> pv_ok w.
Proof.
  intros V E. destruct k; cbn [norm] in E; try (apply Ok_eq in E; subst; exact V). apply rbind_ok in E as (d & D & E). apply rbind_ok in E as (e & F & E). apply Ok_eq in E. subst.
  exact (fill_label_good d e (as_dict_good _ _ V D) F).
Qed.
Lemma holder_good k o d : meta_ok o -> holder k o = Ok d -> dict_good d.
Proof.
  intros M E. unfold holder in E. apply rbind_ok in E as (g & G & E). apply rbind_ok in G as (v & V & G). pose proof (as_dict_good _ _ (ditem_good _ _ _ M V) G) as GG.
  destruct (section k) as [s|]; [|apply Ok_eq in E; subst; exact GG]. apply rbind_ok in E as (w & W & E). exact (as_dict_good _ _ (ditem_good _ _ _ GG W) E).
Qed.
Lemma labels_no_part : no_part $"timelabels". Proof. intros c. destruct c; vm_compute; discriminate. Qed.
Lemma store_good k l o : (forall x, l = Some x -> Forall pv_ok x) -> meta_ok o -> meta_ok (store k l o) /\ same_else o (store k l o).
Proof.
  intros L M. unfold store. destruct (holder k o) as [d|e] eqn:H; [|split; [exact M|apply same_refl]]. pose proof (holder_good _ _ _ M H) as DG.
  assert (D' : dict_good (match l with Some l => dset (list_key k) (PList l) d | None => ddel (list_key k) d end)) by (destruct l as [l|]; [apply dset_good; [apply list_good, L; reflexivity|exact DG]|apply ddel_good, DG]).
  unfold put_holder. destruct (rbind (ditem $"grain" (o_meta o)) as_dict) as [g|e] eqn:G; [|split; [exact M|apply same_refl]]. split.
  - apply rbind_ok in G as (v & V & G). pose proof (as_dict_good _ _ (ditem_good _ _ _ M V) G) as GG. unfold meta_ok. cbn [o_meta]. apply dset_good; [|exact M]. destruct (section k); [apply dset_good; assumption|exact D'].
  - apply (same_put o g); [exact G|]. intros s S HS. unfold holder in H. rewrite G in H. cbn [rbind] in H. destruct k; cbn [section] in *; [|apply has_put, HS..].
    apply Ok_eq in H. subst d. assert (N : s <> $"timelabels") by (intros ->; exact (labels_no_part _ S)). destruct l; [apply has_set|apply has_del]; auto.
Qed.
Lemma raw_good k o l : meta_ok o -> raw k o = Ok (Some l) -> Forall pv_ok l.
Proof.
  intros M E. unfold raw in E. apply rbind_ok in E as (d & D & E). apply holder_good in D; [|exact M]. destruct (dget (list_key k) d) as [v|] eqn:G; [|discriminate E].
  apply rbind_ok in E as (x & X & E). apply Ok_eq in E. assert (x = l) by congruence. subst. exact (as_list_good _ _ (dget_good _ _ _ D G) X).
Qed.
Local Hint Resolve same_refl : core.
Lemma keeps_ret {A} (P : A -> Prop) a : P a -> keeps P (ret a).
Proof. intros H o M. cbn [ret fst snd]. split; [auto|]; split; [auto|]. intros x X. apply Ok_eq in X. subst. exact H. Qed.
Lemma keeps_fail {A} (P : A -> Prop) e : keeps P (@fail A e).
Proof. intros o M. cbn [fail fst snd]. split; [auto|]; split; [auto|]. discriminate. Qed.
Lemma keeps_lift {A} (P : A -> Prop) r : (forall a, r = Ok a -> P a) -> keeps P (lift r).
Proof. intros H o M. cbn [lift fst snd]. split; [auto|]; split; auto. Qed.
Lemma keeps_bind {A B} (P : A -> Prop) (Q : B -> Prop) m f : keeps P m -> (forall a, P a -> keeps Q (f a)) -> keeps Q (mbind m f).
Proof.
  intros H F o M. unfold mbind. destruct (H o M) as (H1 & H2 & H3). destruct (m o) as [o' [a|e]]; cbn [fst snd] in *.
  - destruct (F a (H3 a eq_refl) o' H1) as (K1 & K2 & K3). split; [auto|]; split; [eapply same_trans; eassumption|auto].
  - split; [auto|]; split; [auto|]. discriminate.
Qed.
Lemma keeps_list {A} (P : A -> Prop) k f : (forall l, Forall pv_ok l -> keeps P (f l)) -> keeps P (with_list k f).
Proof.
  intros F o M. unfold with_list. destruct (raw k o) as [[l|]|e] eqn:R; cbn [fst snd]; [|(split; [auto|]; split; [auto|]); discriminate|(split; [auto|]; split; [auto|]); discriminate].
  exact (F l (raw_good _ _ _ M R) o M).
Qed.
Lemma keeps_put k l : (forall x, l = Some x -> Forall pv_ok x) -> keeps pv_ok (put_list k l).
Proof. intros L o M. cbn [put_list fst snd]. destruct (store_good k l o L M) as [H1 H2]. split; [auto|]; split; [auto|]. intros a E. apply Ok_eq in E. subst. constructor. Qed.
Lemma keeps_put_some k l : Forall pv_ok l -> keeps pv_ok (put_list k (Some l)).
Proof. intros L. apply keeps_put. intros x X. assert (l = x) by congruence. subst. exact L. Qed.
Lemma get_item_good k i : keeps pv_ok (get_item k i).
Proof.
  apply keeps_list. intros l L. apply (keeps_bind pv_ok); [apply keeps_lift; intros a; apply lget_forall, L|]. intros v V.
  apply (keeps_bind pv_ok); [apply keeps_lift; intros a; apply norm_good, V|]. intros w W.
  apply (keeps_bind (Forall pv_ok)); [apply keeps_lift; intros a; apply lput_forall; assumption|]. intros r R. apply (keeps_bind pv_ok); [apply keeps_put_some, R|]. intros _ _. apply keeps_ret, W.
Qed.
Lemma get_each_good k p : keeps (Forall pv_ok) (get_each k p).
Proof.
  induction p as [|i p IH]; cbn [get_each]; [apply keeps_ret; constructor|]. apply (keeps_bind pv_ok); [apply get_item_good|]. intros v V. apply (keeps_bind (Forall pv_ok)); [exact IH|]. intros r R. apply keeps_ret. constructor; assumption.
Qed.
Lemma lslice_forall {A} (P : A -> Prop) l s r : Forall P l -> lslice l s = Ok r -> Forall P r.
Proof.
  intros F E. unfold lslice in E. apply rbind_ok in E as (p & _ & E). apply Ok_eq in E. subst. apply Forall_forall. intros x X. apply in_flat_map in X as (j & _ & X).
  pose proof (zskip_forall P l j F) as G. destruct (zskip j l); [destruct X|]. destruct X as [<-|[]]. inversion G. assumption.
Qed.
Lemma put_positions_forall p : forall (vs : list pv) l, Forall pv_ok l -> Forall pv_ok vs -> Forall pv_ok (put_positions l p vs).
Proof.
  unfold put_positions. induction p as [|j p IH]; intros vs l L V; cbn [combine fold_left]; [exact L|]. destruct vs as [|v vs]; cbn [combine fold_left fst snd]; [exact L|].
  inversion V as [|? ? V1 V2]; subst. destruct (lput l j v) as [r|e] eqn:E; apply IH; auto. apply (lput_forall pv_ok l j v); auto.
Qed.
Lemma get_slice_good k s : keeps pv_ok (get_slice k s).
Proof.
  assert (G : forall k, keeps pv_ok (with_list k (fun l => mbind (lift (slice_positions (zlen l) s)) (fun p => mbind (get_each k p) (fun r => ret (PList r)))))).
  { intros k'. apply keeps_list. intros l L. apply (keeps_bind (fun _ => True)); [apply keeps_lift; trivial|]. intros p _. apply (keeps_bind (Forall pv_ok)); [apply get_each_good|]. intros r R. apply keeps_ret, list_good, R. }
  destruct k; cbn [get_slice]; [apply G| |apply G]. apply keeps_list. intros l L. apply (keeps_bind (Forall pv_ok)); [apply keeps_lift; intros r; apply lslice_forall, L|]. intros r R. apply keeps_ret, list_good, R.
Qed.
Lemma set_item_good k i v : pv_ok v -> keeps pv_ok (set_item k i v).
Proof.
  intros V. apply keeps_list. intros l L. apply (keeps_bind pv_ok); [apply keeps_lift; intros a; apply norm_good, V|]. intros w W.
  apply (keeps_bind (Forall pv_ok)); [apply keeps_lift; intros a; apply lput_forall; assumption|]. intros r R. apply keeps_put_some, R.
Qed.
Lemma slice_put_forall l s vs r : Forall pv_ok l -> Forall pv_ok vs -> lslice_put l s vs = Ok r -> Forall pv_ok r.
Proof.
  intros L V E. unfold lslice_put in E. apply rbind_ok in E as ([[a b] st] & _ & E). destruct (st =? 1).
  - apply Ok_eq in E. subst. apply Forall_app. split; [apply zfirst_forall, L|]. apply Forall_app. split; [exact V|apply zskip_forall, L].
  - destruct (_ =? _); [|discriminate E]. apply Ok_eq in E. subst. apply put_positions_forall; assumption.
Qed.
Lemma set_slice_good k s vs : Forall pv_ok vs -> keeps pv_ok (set_slice k s vs).
Proof.
  intros V. apply keeps_list. intros l L. destruct k; [apply keeps_fail| |].
  - apply (keeps_bind (Forall pv_ok)); [apply keeps_lift; intros r; apply slice_put_forall; assumption|]. intros r R. apply keeps_put_some, R.
  - apply (keeps_bind (fun _ => True)); [apply keeps_lift; trivial|]. intros p _. apply (keeps_bind pv_ok); [apply keeps_put_some, put_positions_forall; assumption|]. intros _ _.
    destruct (_ <? _); [apply keeps_fail|apply keeps_ret; constructor].
Qed.
Lemma del_with_good k f : (forall l r, Forall pv_ok l -> f l = Ok r -> Forall pv_ok r) -> keeps pv_ok (del_with k f).
Proof.
  intros F. apply keeps_list. intros l L. apply (keeps_bind (Forall pv_ok)); [apply keeps_lift; intros r; apply F, L|]. intros r R. apply keeps_put. intros x X.
  destruct k, r; try discriminate X; (assert (E : Some x = Some _) by (symmetry; exact X)); injection E as ->; exact R.
Qed.
Lemma lcut_forall {A} (P : A -> Prop) l i r : Forall P l -> lcut l i = Ok r -> Forall P r.
Proof.
  intros F E. unfold lcut in E. destruct (py_idx (zlen l) i) as [j|]; [|discriminate E]. apply Ok_eq in E. subst. apply Forall_app. split; [apply zfirst_forall, F|apply zskip_forall, F].
Qed.
Lemma drop_at_forall {A} (P : A -> Prop) p l : forall j, Forall P l -> Forall P (drop_at j p l).
Proof. induction l as [|x l IH]; intros j F; cbn [drop_at]; [constructor|]. inversion F; subst. destruct (existsb _ _); [auto|]. constructor; auto. Qed.
Lemma del_item_good k i : keeps pv_ok (del_item k i). Proof. apply del_with_good. intros l r. apply lcut_forall. Qed.
Lemma del_slice_good k s : keeps pv_ok (del_slice k s).
Proof. apply del_with_good. intros l r L E. unfold lslice_cut in E. apply rbind_ok in E as (p & _ & E). apply Ok_eq in E. subst. apply drop_at_forall, L. Qed.
Lemma linsert_forall {A} (P : A -> Prop) l i x : Forall P l -> P x -> Forall P (linsert l i x).
Proof. intros F H. unfold linsert. apply Forall_app. split; [apply zfirst_forall, F|]. constructor; [exact H|apply zskip_forall, F]. Qed.
Lemma insert_good k i v : pv_ok v -> keeps pv_ok (insert k i v).
Proof.
  intros V o M. unfold insert. destruct (raw k o) as [[l|]|e] eqn:R.
  - apply raw_good in R; [|exact M]. destruct (norm k v) as [w|e] eqn:N; [|exact (keeps_fail pv_ok e o M)]. apply (keeps_put_some k (linsert l i w)); [|exact M]. apply linsert_forall; [exact R|exact (norm_good _ _ _ V N)].
  - assert (S : forall l e, Forall pv_ok l -> meta_ok (store k (Some l) o) /\ same_else o (store k (Some l) o) /\ (forall a : pv, Err e = Ok a -> pv_ok a)).
    { intros l e L. destruct (keeps_put_some k l L o M) as (S1 & S2 & _). cbn [put_list fst] in *. split; [auto|]; split; [auto|]. discriminate. }
    destruct k; try exact (keeps_fail pv_ok _ o M); destruct (norm _ v) as [w|e] eqn:N; cbn [fst snd]; try (apply S; constructor);
      (apply (keeps_put_some _ (linsert [] i w)); [|exact M]; apply linsert_forall; [constructor|exact (norm_good _ _ _ V N)]).
  - exact (keeps_fail pv_ok e o M).
Qed.
Lemma len_good k : keeps (fun _ => True) (len k).
Proof. intros o M. unfold len. destruct (raw k o) as [[l|]|e]; cbn [fst snd]; auto. Qed.
Lemma append_good k v : pv_ok v -> keeps pv_ok (append k v).
Proof. intros V. apply (keeps_bind (fun _ => True)); [apply len_good|]. intros n _. apply insert_good, V. Qed.
Lemma pop_good k i : keeps pv_ok (pop k i).
Proof. apply (keeps_bind pv_ok); [apply get_item_good|]. intros v V. apply (keeps_bind pv_ok); [apply del_item_good|]. intros _ _. apply keeps_ret, V. Qed.
Lemma extend_good k vs : Forall pv_ok vs -> keeps pv_ok (extend k vs).
Proof. induction vs as [|v vs IH]; intros F; cbn [extend]; [apply keeps_ret; constructor|]. inversion F; subst. apply (keeps_bind pv_ok); [apply append_good; assumption|]. intros _ _. auto. Qed.
Lemma clear_loop_good k fuel : keeps pv_ok (clear_loop fuel k).
Proof.
  induction fuel as [|fuel IH]; intros o M; cbn [clear_loop]; [exact (keeps_fail pv_ok EFuel o M)|]. destruct (pop_good k (-1) o M) as (P1 & P2 & P3).
  destruct (pop k (-1) o) as [o' [a|e]]; cbn [fst snd] in *.
  - destruct (IH o' P1) as (I1 & I2 & I3). split; [auto|]; split; [eapply same_trans; eassumption|auto].
  - destruct e; cbn [fst snd]; (split; [auto|]; split; [auto|]); try discriminate. intros a X. apply Ok_eq in X. subst. constructor.
Qed.
Lemma swap_good k n i : keeps pv_ok (swap k n i).
Proof.
  apply (keeps_bind pv_ok); [apply get_item_good|]. intros a A. apply (keeps_bind pv_ok); [apply get_item_good|]. intros b B. apply (keeps_bind pv_ok); [apply set_item_good, A|]. intros _ _. apply set_item_good, B.
Qed.
Lemma swaps_good k n is : keeps pv_ok (swaps k n is).
Proof. induction is as [|i is IH]; cbn [swaps]; [apply keeps_ret; constructor|]. apply (keeps_bind pv_ok); [apply swap_good|]. intros _ _. exact IH. Qed.
Lemma iter_loop_good k fuel : forall i, keeps (Forall pv_ok) (iter_loop fuel k i).
Proof.
  induction fuel as [|fuel IH]; intros i o M; cbn [iter_loop]; [exact (keeps_fail (Forall pv_ok) EFuel o M)|]. destruct (get_item_good k i o M) as (P1 & P2 & P3).
  destruct (get_item k i o) as [o' [a|e]]; cbn [fst snd] in *.
  - assert (K : keeps (Forall pv_ok) (mbind (iter_loop fuel k (i + 1)) (fun r => ret (a :: r)))).
    { apply (keeps_bind (Forall pv_ok)); [apply IH|]. intros r R. apply keeps_ret. constructor; auto. }
    destruct (K o' P1) as (I1 & I2 & I3). split; [auto|]; split; [eapply same_trans; eassumption|auto].
  - destruct e; cbn [fst snd]; (split; [auto|]; split; [auto|]); try discriminate. intros a X. apply Ok_eq in X. subst. constructor.
Qed.
Lemma index_loop_good k v fuel : forall i, keeps pv_ok (index_loop fuel k v i).
Proof.
  induction fuel as [|fuel IH]; intros i o M; cbn [index_loop]; [exact (keeps_fail pv_ok EFuel o M)|]. destruct (get_item_good k i o M) as (P1 & P2 & P3).
  destruct (get_item k i o) as [o' [a|e]]; cbn [fst snd] in *.
  - destruct (py_eq a v).
    + cbn [fst snd]. split; [auto|]; split; [auto|]. intros x X. apply Ok_eq in X. subst. constructor.
    + destruct (IH (i + 1) o' P1) as (I1 & I2 & I3). split; [auto|]; split; [eapply same_trans; eassumption|auto].
  - destruct e; cbn [fst snd]; (split; [auto|]; split; [auto|]); discriminate.
Qed.
Lemma index_good k v : keeps pv_ok (index k v). Proof. intros o. apply (index_loop_good k v _ 0 o). Qed.
Lemma items_good k : keeps (Forall pv_ok) (items k). Proof. intros o. apply (iter_loop_good k _ 0 o). Qed.
Lemma do_op_good k op : lop_good op -> keeps pv_ok (do_op k op).
Proof.
  intros G. destruct op; cbn [do_op lop_good] in *.
  - apply get_item_good.
  - apply get_slice_good.
  - apply set_item_good, G.
  - apply set_slice_good, G.
  - apply del_item_good.
  - apply del_slice_good.
  - apply insert_good, G.
  - apply (keeps_bind (fun _ => True)); [apply len_good|]. intros n _. apply keeps_ret. constructor.
  - apply append_good, G.
  - apply pop_good.
  - apply extend_good, G.
  - intros o. apply (clear_loop_good k _ o).
  - apply (keeps_bind (fun _ => True)); [apply len_good|]. intros n _. apply swaps_good.
  - apply (keeps_bind (Forall pv_ok)); [apply items_good|]. intros l L. apply keeps_ret, list_good, L.
  - apply index_good.
  - apply (keeps_bind pv_ok); [apply index_good|]. intros i _. destruct i; try apply keeps_fail. apply del_item_good.
  - apply (keeps_bind (Forall pv_ok)); [apply items_good|]. intros l L. apply keeps_ret. constructor.
  - apply (keeps_bind (Forall pv_ok)); [apply items_good|]. intros l L. apply keeps_ret. constructor.
Qed.
Lemma set_labels_good vs : Forall pv_ok vs -> keeps pv_ok (set_labels vs).
Proof.
  intros V o M. unfold set_labels. destruct (holder Labels o) as [d|e]; [|exact (keeps_fail pv_ok e o M)].
  destruct (store_good Labels (Some []) o) as [S1 S2]; [intros x X; assert (x = []) by congruence; subst; constructor|exact M|]. destruct (extend_good Labels vs V _ S1) as (E1 & E2 & E3). split; [auto|]; split; [eapply same_trans; eassumption|auto].
Qed.
Lemma in_label_good k v : pv_ok v -> keeps_dict (in_label k v).
Proof. intros V. apply with_key_good. intros d e D E. apply Ok_eq in E. subst. apply dset_good; assumption. Qed.
Lemma put_tag_good v : pv_ok v -> keeps_dict (put_tag v). Proof. intros V d e D E. apply Ok_eq in E. subst. apply dset_good; assumption. Qed.
Lemma put_count_good v : keeps_dict (put_count v). Proof. intros d e D E. unfold put_count in E. apply rbind_ok in E as (z & _ & E). revert E. apply in_label_good; [constructor|exact D]. Qed.
Lemma put_rate_good v : keeps_dict (put_rate v).
Proof.
  intros d e D E. unfold put_rate in E. apply rbind_ok in E as (f & _ & E). destruct f; try discriminate E. apply rbind_ok in E as (x & X & E).
  refine (in_label_good _ _ (ok_int _) _ _ _ E). exact (in_label_good _ _ (ok_int _) _ _ D X).
Qed.
Lemma put_drop_good v : keeps_dict (put_drop v). Proof. apply in_label_good. constructor. Qed.
Lemma label_edit_good f : label_edit f -> keeps_dict f.
Proof. intros (v & V & [ -> |[ -> |[ -> | -> ]]]); [apply put_tag_good, V|apply put_count_good|apply put_rate_good|apply put_drop_good]. Qed.
Lemma add_timelabel_good tag count rate drop : pv_ok tag -> keeps pv_ok (add_timelabel tag count rate drop).
Proof.
  intros T. apply (keeps_bind dict_good); [|intros d D; apply append_good, D]. apply keeps_lift. intros d E. apply rbind_ok in E as (d1 & E1 & E). apply rbind_ok in E as (d2 & E2 & E).
  apply rbind_ok in E as (d3 & E3 & E). apply rbind_ok in E as (d4 & E4 & E). pose proof (fill_label_good _ _ nil_good E1) as D1.
  exact (put_drop_good drop _ _ (put_rate_good rate _ _ (put_count_good count _ _ (put_tag_good tag T _ _ D1 E2) E3) E4) E).
Qed.
Lemma edit_label_good i f : label_edit f -> keeps pv_ok (edit_label i f).
Proof.
  intros F. apply (keeps_bind pv_ok); [apply get_item_good|]. intros v V. apply (keeps_bind dict_good).
  - apply keeps_lift. intros d E. apply rbind_ok in E as (x & X & E). exact (label_edit_good f F x d (as_dict_good _ _ V X) E).
  - intros d D. apply keeps_list. intros l L. apply (keeps_bind (Forall pv_ok)); [apply keeps_lift; intros r; apply lput_forall; [exact L|exact D]|]. intros r R. apply keeps_put_some, R.
Qed.
Lemma set_offset_list_good vs : (forall l, vs = Some l -> Forall pv_ok l) -> keeps pv_ok (set_offset_list vs).
Proof.
  intros V o M. unfold set_offset_list. destruct (holder Offsets o) as [d|e]; [|exact (keeps_fail pv_ok e o M)].
  assert (N : forall a : pv, Ok PNone = Ok a -> pv_ok a) by (intros a X; apply Ok_eq in X; subst; constructor).
  assert (S : meta_ok (store Offsets None o) /\ same_else o (store Offsets None o)) by (apply store_good; [discriminate|exact M]).
  destruct vs as [[|v vs]|]; cbn [fst snd].
  - destruct (dhas $"unit_offsets" d); [destruct S; auto|auto].
  - destruct (store_good Offsets (Some (v :: vs)) o V M); auto.
  - destruct (dhas $"unit_offsets" d); [destruct S; auto|auto].
Qed.

(** ** What is read. *)
Lemma opt_keys {A} k (f : A -> pv) x : map fst (opt_entry k f x) = match x with Some _ => [k] | None => [] end. Proof. destruct x; reflexivity. Qed.
Lemma opt_good {A} k (f : A -> pv) x : (forall a, x = Some a -> pv_ok (f a)) -> Forall (fun kv => pv_ok (snd kv)) (opt_entry k f x).
Proof. intros H. destruct x; constructor; [apply H; reflexivity|constructor]. Qed.
Lemma ratio_good r : pv_ok (ratio_pv r). Proof. apply ok_dict; [keys|]. repeat constructor. Qed.
Lemma ints_good l : pv_ok (PList (map PInt l)). Proof. apply list_good, Forall_map, Forall_forall. intros z _. constructor. Qed.
Lemma frac_pv_good r : rat_ok r -> pv_ok (frac_pv r). Proof. intros [A B]. constructor; assumption. Qed.
Lemma video_dict_good v : dict_good (video_dict v).
Proof.
  apply ok_dict.
  - unfold video_dict. rewrite !map_app, !opt_keys. destruct (v_sar v), (v_par v); keys.
  - unfold video_dict. repeat (apply Forall_app; split).
    + repeat constructor.
    + apply opt_good. intros; apply ratio_good.
    + apply opt_good. intros; apply ratio_good.
    + constructor; [|constructor]. apply list_good, Forall_map, Forall_forall. intros c _. apply ok_dict; [keys|]. repeat constructor.
Qed.
Lemma coded_dict_good c : dict_good (coded_dict c).
Proof.
  apply ok_dict.
  - unfold coded_dict. rewrite !map_app, !opt_keys. destruct (c_key c), (c_temporal c), (c_units c); keys.
  - unfold coded_dict. repeat (apply Forall_app; split); try (apply opt_good; intros; first [apply ints_good|constructor]). repeat constructor.
Qed.
Lemma meta_dict_good m : rat_ok (m_rate m) -> rat_ok (m_dur m) -> dict_good (meta_dict m).
Proof.
  intros R D. apply ok_dict; [constructor; [intros []|constructor]|]. constructor; [|constructor]. cbn [snd]. apply ok_dict.
  - rewrite !map_app, !opt_keys. destruct (m_tils m), (m_type m), (m_video m), (m_coded m), (m_audio m), (m_caudio m); keys.
  - apply Forall_app; split; [repeat (apply Forall_cons; [cbn [snd]; first [apply frac_pv_good; assumption|constructor]|]); constructor|]. apply Forall_app; split.
    { apply opt_good. intros l _. apply list_good, Forall_map, Forall_forall. intros t _. apply ok_dict; [keys|]. constructor; [constructor|]. constructor; [|constructor]. apply ok_dict; [keys|]. repeat constructor. }
    apply Forall_app; split; [destruct (m_type m); repeat constructor|]. repeat (apply Forall_app; split); apply opt_good; intros.
    + apply video_dict_good.
    + apply coded_dict_good.
    + apply ok_dict; [keys|]. repeat constructor.
    + apply ok_dict; [keys|]. repeat constructor.
Qed.
Lemma shape_shaped o : meta_ok o -> shape o -> shaped o.
Proof.
  intros M (g & G & H). exists g. split; [exact G|]. pose proof (dget_good _ _ _ M G) as GG. destruct (part_of (o_class o)) as [s|]; [|trivial]. destruct (H s eq_refl) as [d D]. exists d. split; [exact D|].
  pose proof (dget_good _ _ _ GG D) as DG. inversion DG. assumption.
Qed.
Lemma shaped_shape o : shaped o -> shape o.
Proof. intros (g & G & H). exists g. split; [exact G|]. intros s S. rewrite S in H. destruct H as (d & D & _). exists d. exact D. Qed.
Lemma item_good now file i o : bytes_ok file -> (forall b, i_data i = PBytes b -> bytes_ok b) -> rat_ok (m_rate (i_meta i)) -> rat_ok (m_dur (i_meta i)) -> item_object now file i = Ok o -> meta_ok o /\ stored_ok o /\ shape o.
Proof.
  intros F B R D E. unfold item_object in E. apply rbind_ok in E as (x & X & E).
  assert (A : arg_ok (payload_arg file (i_data i))).
  { destruct (i_data i) as [|b|p n|p n t] eqn:I; cbn [payload_arg arg_ok]; trivial; [apply B; reflexivity|]. unfold GsfFileSpec.slice. apply bytes_ok_zfirst, bytes_ok_zskip, F. }
  pose proof (factory_good _ _ _ _ (meta_dict_good _ R D) X) as M. pose proof (factory_stored _ _ _ _ A X) as S. pose proof (shaped_shape _ (factory_shaped _ _ _ _ (meta_dict_good _ R D) X)) as H.
  destruct (i_data i); try (apply Ok_eq in E; subst; auto). unfold set_length in E. apply rbind_ok in E as (d & _ & E). destruct d; [discriminate E|]. destruct (o_wait x); [|discriminate E]. apply Ok_eq in E. subst o.
  split; [exact M|split; [exact S|exact H]].
Qed.

Lemma data_good o b : stored_ok o -> get_data o = Ok (Some b) -> bytes_ok b.
Proof.
  intros S D. unfold get_data in D. destruct (o_class o); try (apply Ok_eq in D; exact (S _ D)). apply rbind_ok in D as (x & X & D). apply Ok_eq in D. assert (x = b) by congruence. subst x.
  unfold event_json in X. binds X. apply Ok_eq in X. subst b. apply utf8_enc_ok, ascii_ok. match goal with H : dumps _ = Ok _ |- _ => exact (dumps_ascii _ _ H) end.
Qed.
Theorem lives_all o : lives o -> meta_ok o /\ stored_ok o /\ shape o.
Proof.
  assert (same_ok : forall o o', stored_ok o -> shape o -> same_else o o' -> stored_ok o' /\ shape o').
  { intros a b S H (D & _ & F). split; [|auto]. intros x X. apply S. congruence. }
  intros H. induction H as [o M S|now k f s l s' out i o F D N E|o n v o' _ (M & S & H) V E|o a o' _ (M & S & H) A E|o n o' _ (M & S & H) E|o k op _ (M & S & H) G|o vs _ (M & S & H) V|o tag count rate drop _ (M & S & H) T
    |o i f _ (M & S & H) F|o vs _ (M & S & H) V|o b _ (M & S & H) B N|o op _ (M & S & H) G|o now o' _ (M & S & H) E].
  - split; [apply made_good, M|split; [exact S|apply shaped_shape, made_shaped, M]].
  - pose proof (decoded_items k f s l s' out F D) as Q. rewrite Forall_forall in Q. destruct (Q i N) as [[R1 R2] B]. exact (item_good now (f_data f) i o F B R1 R2 E).
  - destruct (set_attr_good n v o o' V M E) as [A B]. split; [exact A|eauto].
  - destruct (set_data_good a o o' A M S E) as (A1 & A2 & A3). auto.
  - apply set_length_good in E as (A & C & B). split; [unfold meta_ok; rewrite A; exact M|]. split; [intros x X; congruence|]. unfold shape. rewrite A, C. exact H.
  - destruct (do_op_good k op G o M) as (A & B & _). split; [exact A|eauto].
  - destruct (set_labels_good vs V o M) as (A & B & _). split; [exact A|eauto].
  - destruct (add_timelabel_good tag count rate drop T o M) as (A & B & _). split; [exact A|eauto].
  - destruct (edit_label_good i f F o M) as (A & B & _). split; [exact A|eauto].
  - destruct (set_offset_list_good vs V o M) as (A & B & _). split; [exact A|eauto].
  - split; [exact M|]. split; [|exact H]. intros x X. cbn [o_data] in X. assert (b = x) by congruence. subst. exact B.
  - destruct (apply_good op o G M) as [A B]. split; [exact A|eauto].
  - unfold copy_obj in E. apply rbind_ok in E as (d & D & E). split; [exact (factory_good _ _ _ _ M E)|]. split; [|apply shaped_shape, (factory_shaped _ _ _ _ M E)].
    refine (factory_stored _ _ _ _ _ E). destruct d as [b|]; [|exact I]. exact (data_good o b S D).
Qed.
Theorem lives_good o : lives o -> meta_ok o /\ stored_ok o /\ shaped o.
Proof. intros L. destruct (lives_all o L) as (M & S & H). repeat (split; auto). apply shape_shaped; assumption. Qed.
(** What holds then of every grain. *)
Theorem lives_payload o b : lives o -> get_data o = Ok (Some b) -> bytes_ok b.
Proof. intros L. apply data_good. exact (proj1 (proj2 (lives_good o L))). Qed.
