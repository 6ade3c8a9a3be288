(** When building again changes nothing, key by key; and that assignments keep it so. *)
From Coq Require Import String Lia ZifyBool.
From Verif Require Import Base BaseProofs PyValue PyValueProofs JsonProofs CogEnums VideoLayout GrainObj BuildSpec BuildProofs BuildMain BuildKw GrainSet GrainSetSpec GrainSetProofs GrainSetMain GrainCopy GrainCopySpec.
Local Open Scope list_scope.

Definition part_settled (c : gclass) (f : dict) : Prop :=
  (forall k, In k (map fst (part_defaults c)) -> dget k f <> None) /\ (forall k, In k (numbers c) -> exists z, dget k f = Some (PInt z)) /\
  (c = KVideo -> exists v, dget $"components" f = Some v /\ (v = PList [] \/ exists n, py_len v = Ok n /\ n <> 0)).
Record settled (o : gobj) : Prop := {
  st_class : class_for (o_meta o) = Ok (o_class o);
  st_ns : dget $"@_ns" (o_meta o) <> None;
  st_grain : exists g, dget $"grain" (o_meta o) = Some (PDict g) /\ stable g /\
    (o_class o <> KGrain -> dget $"grain_type" g = Some (PStr (type_name (o_class o))) /\ exists f, dget (part_name (o_class o)) g = Some (PDict f) /\ part_settled (o_class o) f) }.
Lemma part_settled_id c f : c <> KGrain -> part_settled c f -> part_fun c f = Ok f.
Proof.
  intros N (A & B & _). unfold part_fun. assert (X : convs (int_convs (numbers c)) f = Ok f) by (apply int_convs_id, B). assert (Y : fill (part_defaults c) f = f) by (apply fill_id, A).
  destruct c; rewrite ?Y; exact X.
Qed.
Lemma settled_faithful o : settled o -> faithful o.
Proof.
  intros [C NS (g & G & S & P)]. split; [exact C|]. intros now.
  assert (E : mkO (o_class o) (o_meta o) (match o_class o with KGrain | KEvent => None | _ => Some [] end) None = mk (o_class o) (o_meta o) ANone) by (unfold mk; destruct (o_class o); reflexivity).
  rewrite E. clear E. set (c := o_class o) in *. set (m := o_meta o) in *. rewrite init_steps. destruct (class_dec c) as [K|N].
  - rewrite K. cbn [before rbind]. rewrite (meta_id now m g G NS S). reflexivity.
  - destruct (P N) as (TY & f & F & PS). assert (B2 : step_fun c f = Ok f) by (rewrite step_fun_part by exact N; apply part_settled_id; assumption).
    assert (B1 : before c m = Ok m).
    { assert (Z : c = KVideo \/ c <> KVideo) by (destruct c; auto; right; discriminate). destruct Z as [V|V]; [|destruct c; try reflexivity; destruct V; reflexivity].
      rewrite V in *. destruct PS as (_ & _ & PV). destruct (PV eq_refl) as (v & CV & CO). unfold before. apply (with_key_id _ _ _ g G). apply comps_step. right. exists f, f. split; [exact F|]. split; [|symmetry; apply dset_same, F].
      unfold with_comps. rewrite CV. destruct CO as [->|(n & -> & NZ)]; cbn [py_len rbind]; [rewrite (dset_same _ _ _ CV); reflexivity|]. destruct (n =? 0) eqn:NE; [lia|reflexivity]. }
    rewrite B1. cbn [rbind]. rewrite (meta_id now m g G NS S). cbn [rbind].
    assert (K : with_key $"grain" (class_fields c ANone) m = Ok m).
    { apply (class_fields_ext c ANone); [exact N|destruct c; exact I|]. apply (step_id c _ _ m g f G TY F B2). }
    destruct c; try (rewrite K; reflexivity). destruct N; reflexivity.
Qed.
Lemma existsb_in k l : In k l -> existsb (zlist_eqb k) l = true.
Proof. intros I. apply existsb_exists. exists k. split; [exact I|apply zlist_eqb_refl]. Qed.
Lemma faithful_settled o : faithful o -> settled o.
Proof.
  intros [C H]. specialize (H 0). assert (NB : not_bytes (o_class o) ANone) by (destruct (o_class o); exact I). destruct (init_built _ _ _ _ _ NB H) as [[B1 [g G] B3 B4 B5] _]. cbn [o_meta] in *.
  pose proof (proj1 (init_total (o_class o) 0 (o_meta o) ANone NB) (ex_intro _ _ H)) as [_ T _ NM CO]. rewrite (fields_dict _ _ G) in *. constructor; [exact C| |].
  - rewrite B1 by differ. destruct (dget $"@_ns" (o_meta o)); [discriminate|vm_compute; discriminate].
  - exists g. split; [exact G|]. assert (PL : forall k, In k (map fst (standard 0 [])) -> (o_class o = KGrain \/ k <> part_name (o_class o) /\ k <> $"grain_type") -> exists v, dget k g = Some v /\ plain k v = v /\ (In k time_names -> is_text v = true)).
    { intros k K Q. pose proof (B3 k Q) as E. unfold field_after in E. destruct (dget k (standard 0 g)) as [w|] eqn:W; [|apply dget_none in W; rewrite standard_names in W; contradiction]. cbn [option_map] in E. exists (plain k w). split; [exact E|]. split.
      - destruct w; try reflexivity; cbn [plain]; destruct (existsb _ _) eqn:X; try reflexivity; cbn [plain]; try rewrite X; reflexivity.
      - intros I. destruct (T k w I W) as [[t ->]|X]; [cbn [plain]; rewrite (existsb_in _ _ I); reflexivity|]. destruct w; try discriminate X; reflexivity. }
    split.
    + intros k K. destruct (class_dec (o_class o)) as [Q|Q]; [apply PL; auto|]. destruct (list_eq_dec Z.eq_dec k $"grain_type") as [->|NT].
      * rewrite (B4 Q). eexists. split; [reflexivity|]. split; [reflexivity|]. intros _. reflexivity.
      * apply PL; [exact K|]. right. split; [|exact NT]. intros ->. exact (part_not_standard _ Q K).
    + intros Q. split; [exact (B4 Q)|]. destruct (B5 Q) as (f & F & PA). exists f. split; [exact F|]. unfold part_after in PA. rewrite F in PA. split; [|split].
      * intros k K E. specialize (PA k). rewrite E in PA. destruct (dget k (part_defaults (o_class o))) eqn:D; [discriminate PA|]. apply dget_none in D. contradiction.
      * intros k K. pose proof (PA k) as E. specialize (NM k f K F). destruct (dget k f) as [v|] eqn:D.
        -- destruct NM as [z Z]. cbn [option_map] in E. unfold part_plain in E. rewrite (existsb_in _ _ K), Z in E. injection E as ->. eauto.
        -- assert (W : exists w, dget k (part_defaults (o_class o)) = Some w).
           { clear - K NM. destruct (o_class o); cbn [numbers In] in K; try (destruct NM; reflexivity); repeat (destruct K as [<-|K]; [eexists; vm_compute; reflexivity|]); destruct K. }
           destruct W as [w W]. rewrite W in E. discriminate E.
      * intros V. rewrite V in *. cbn [part_name] in F. pose proof (PA $"components") as E. destruct (dget $"components" f) as [v|] eqn:D; [|discriminate E]. exists v. split; [reflexivity|].
        destruct (CO eq_refl f v F D) as [n L]. destruct (Z.eq_dec n 0) as [->|NZ]; [left|right; eauto]. cbn [option_map] in E. clear - E L. unfold part_plain in E. cbn [numbers] in E.
        change (existsb (zlist_eqb $"components") [$"format"; $"layout"]) with false in E. change (zlist_eqb $"components" $"components") with true in E. destruct v; cbn [py_len] in L; try discriminate L; apply Ok_eq in L.
        -- destruct s; [discriminate E|unfold zlen in L; cbn in L; lia].
        -- destruct l; [reflexivity|unfold zlen in L; cbn in L; lia].
        -- destruct d; [discriminate E|unfold zlen in L; cbn in L; lia].
Qed.

(** ** What is written keeps the stored form. *)
Definition stored_form (c : gclass) (s : slot) : Prop :=
  match sl_part s with
  | None => sl_key s <> $"grain_type" -> forall v w, sl_write s v = Ok (Some w) -> plain (sl_key s) w = w /\ (In (sl_key s) time_names -> is_text w = true)
  | Some _ => forall v x, sl_write s v = Ok x ->
      match x with None => ~ In (sl_key s) (map fst (part_defaults c) ++ numbers c) | Some w => In (sl_key s) (numbers c) -> exists z, w = PInt z end
  end.
Lemma str_of_form v w : str_of v = Ok w -> is_text w = true.
Proof. destruct v; cbn; intros H; try discriminate H; apply Ok_eq in H; subst w; reflexivity. Qed.
Lemma time_form v w : text_of_time v = Ok w -> is_text w = true.
Proof. destruct v; cbn; intros H; try discriminate H; apply Ok_eq in H; subst w; reflexivity. Qed.
Lemma frac_of_form v w : frac_of v = Ok w -> exists d, w = PDict d.
Proof.
  intros H. apply rbind_ok in H as (u & M & E). unfold mk_frac in M. destruct (as_q v) as [[n d]|]; [|discriminate M]. cbn [as_q] in M. unfold frac in M. destruct (_ =? 0); [discriminate M|]. apply Ok_eq in M. subst u.
  apply Ok_eq in E. subst w. eexists. reflexivity.
Qed.
Lemma plain_text k w : is_text w = true -> plain k w = w.
Proof. destruct w; intros H; try discriminate H; reflexivity. Qed.
Lemma always_some f v w : always f v = Ok (Some w) -> f v = Ok w.
Proof. unfold always. intros H. apply rbind_ok in H as (u & A & B). apply Ok_eq in B. injection B as ->. exact A. Qed.
Ltac not_in := intros H; repeat (destruct H as [H|H]; [vm_compute in H; discriminate H|]); destruct H.
Lemma always_not f v : always f v <> Ok None.
Proof. unfold always. destruct (f v); discriminate. Qed.
Lemma form_any p k c : ~ In k (numbers c) -> stored_form c (s_any (Some p) k).
Proof. intros N v x H. destruct x; [|destruct (always_not _ _ H)]. intros I. contradiction. Qed.
Lemma form_int p k r c : stored_form c (mkSlot (Some p) k r (always int_of)).
Proof. intros v x H. destruct x; [|destruct (always_not _ _ H)]. intros _. apply always_some in H. apply rbind_ok in H as (z & _ & E). apply Ok_eq in E. subst p0. eauto. Qed.
Lemma form_ratio p k r c : ~ In k (numbers c) -> stored_form c (mkSlot (Some p) k r (always frac_of)).
Proof. intros N v x H. destruct x; [|destruct (always_not _ _ H)]. intros I. contradiction. Qed.
Lemma form_unless p k r f c : ~ In k (map fst (part_defaults c) ++ numbers c) -> stored_form c (mkSlot (Some p) k r (unless_none f)).
Proof. intros N v x H. destruct x; [|exact N]. intros I. destruct N. apply in_or_app. right. exact I. Qed.
Lemma forms c : Forall (fun a => stored_form c (snd a)) (slots c).
Proof.
  unfold slots. apply Forall_app. split.
  - destruct c; cbn [class_slots]; repeat (apply Forall_cons; [cbn [snd]; first [apply form_int|apply form_any; not_in|apply form_ratio; not_in|apply form_unless; not_in]|]); apply Forall_nil.
  - cbn [common_slots].
    apply Forall_cons; [intros X; destruct X; reflexivity|].
    do 3 (apply Forall_cons; [intros _ v w H; apply always_some, str_of_form in H; split; [apply plain_text, H|intros _; exact H]|]).
    do 3 (apply Forall_cons; [intros _ v w H; apply always_some, time_form in H; split; [apply plain_text, H|intros _; exact H]|]).
    do 2 (apply Forall_cons; [intros _ v w H; apply always_some, frac_of_form in H as [d ->]; split; [reflexivity|not_in]|]). apply Forall_nil.
Qed.
Lemma part_names c : part_of c = match c with KGrain => None | _ => Some (part_name c) end.
Proof. destruct c; reflexivity. Qed.
Lemma settled_home o : settled o -> stable (home None o) /\ (o_class o <> KGrain -> dget $"grain_type" (home None o) = Some (PStr (type_name (o_class o))) /\ part_settled (o_class o) (home (part_of (o_class o)) o)).
Proof.
  intros [_ _ (g & G & S & P)]. rewrite (home_grain _ _ G). split; [exact S|]. intros N. destruct (P N) as (T & f & F & PS). split; [exact T|]. rewrite part_names.
  assert (H : home (Some (part_name (o_class o))) o = f) by exact (home_part _ _ _ _ G F). destruct (o_class o); try (rewrite H; exact PS). destruct N; reflexivity.
Qed.
Lemma class_of_type m m' g g' : dget $"grain" m = Some (PDict g) -> dget $"grain" m' = Some (PDict g') -> dget $"grain_type" g' = dget $"grain_type" g -> class_for m' = class_for m.
Proof. intros G G' E. unfold class_for. rewrite G, G'. cbn [as_dict rbind]. rewrite E. reflexivity. Qed.
Lemma differ_settled s x o o' v : shaped o -> settled o -> place_ok (o_class o) s -> stored_form (o_class o) s -> (sl_part s = None -> sl_key s <> $"grain_type") -> sl_write s v = Ok x ->
  (sl_part s = None -> x <> None) -> differ s x o o' -> settled o'.
Proof.
  intros SH ST PO FO NT W X [D1 D2 D3 D4 D5 D6 D7]. destruct (settled_home _ ST) as [S P]. pose proof SH as (g & G & _). destruct D4 as (g' & G' & PT'). pose proof (home_grain _ _ G) as HG. pose proof (home_grain _ _ G') as HG'.
  assert (T : dget $"grain_type" (home None o') = dget $"grain_type" (home None o)).
  { apply D7; [intros E; apply (part_not_common _ _ E); cbn; tauto|]. intros E. injection E as E1 E2. symmetry in E1, E2. exact (NT E1 E2). }
  constructor.
  - rewrite D1, <- (st_class _ ST). apply (class_of_type _ _ g g' G G'). rewrite <- HG, <- HG'. exact T.
  - rewrite D3 by differ. exact (st_ns _ ST).
  - exists g'. split; [exact G'|]. rewrite <- HG'. split.
    + intros k K. destruct (S k K) as (w & Wk & Q). assert (PN : part_of (o_class o) <> Some k).
      { intros E. apply (part_not_common _ _ E). clear - K. cbn in K. cbn. tauto. }
      unfold stored_form in FO. destruct (sl_part s) as [p|] eqn:SP.
      * exists w. split; [|exact Q]. rewrite D7; [exact Wk|exact PN|discriminate].
      * destruct (list_eq_dec Z.eq_dec k (sl_key s)) as [->|NE].
        -- destruct x as [w'|]; [|destruct (X eq_refl); reflexivity]. exists w'. split; [exact D5|]. exact (FO (NT eq_refl) v w' W).
        -- exists w. split; [|exact Q]. rewrite D7; [exact Wk|exact PN|congruence].
    + rewrite D1. intros N. destruct (P N) as [TY PS]. split; [rewrite T; exact TY|].
      assert (PE : part_of (o_class o) = Some (part_name (o_class o))) by (rewrite part_names; destruct (o_class o); try reflexivity; destruct N; reflexivity).
      rewrite D1, PE in PT'. destruct PT' as (f' & F' & _). exists f'. rewrite HG'. split; [exact F'|]. pose proof (home_part _ _ _ _ G' F') as HF. rewrite PE in *. set (f := home (Some (part_name (o_class o))) o) in *. rewrite HF in D6.
      assert (O : forall k, (Some (part_name (o_class o)), k) <> (sl_part s, sl_key s) -> dget k f' = dget k f) by (intros k NE; apply D6; [discriminate|exact NE]).
      destruct PS as (A & B & C). unfold stored_form, place_ok in *. destruct (sl_part s) as [p|] eqn:SP.
      * destruct PO as [E PO]. rewrite PE in E. injection E as <-. rewrite HF in D5. split; [|split].
        -- intros k K. destruct (list_eq_dec Z.eq_dec k (sl_key s)) as [->|NE]; [|rewrite O by congruence; exact (A k K)]. rewrite D5. specialize (FO v x W). destruct x; [discriminate|]. destruct FO. apply in_or_app. left. exact K.
        -- intros k K. destruct (list_eq_dec Z.eq_dec k (sl_key s)) as [->|NE]; [|rewrite O by congruence; exact (B k K)]. rewrite D5. specialize (FO v x W). destruct x as [w|]; [destruct (FO K) as [z ->]; eauto|]. destruct FO. apply in_or_app. right. exact K.
        -- intros V. destruct (C V) as (w & Cw & Q). exists w. split; [|exact Q]. rewrite O; [exact Cw|]. intros E. injection E as E. apply PO. rewrite <- E. cbn. tauto.
      * split; [|split].
        -- intros k K. rewrite O by discriminate. exact (A k K).
        -- intros k K. rewrite O by discriminate. exact (B k K).
        -- intros V. rewrite O by discriminate. exact (C V).
Qed.
Theorem assignment_settled o n so v o' : shaped o -> settled o -> n <> $"grain_type" -> dget n (sorts (o_class o)) = Some so -> set_attr n v o = Ok o' -> settled o'.
Proof.
  intros S ST N H W. destruct (readable _ _ _ H) as (s & Hs & _). pose proof (place_of _ _ _ Hs) as PO. rewrite (set_slot o n v s Hs (shaped_part o s S PO)) in W. unfold write_slot in W. apply rbind_ok in W as (x & Wx & E). apply Ok_eq in E. subst o'. fold (put_slot s x o).
  pose proof (slot_part_write _ _ _ _ _ Hs Wx) as X. refine (differ_settled s x o _ v S ST PO _ _ Wx X (put_differs s x o S PO X)).
  - exact (proj1 (Forall_forall _ _) (forms (o_class o)) _ (dget_in _ _ _ Hs)).
  - assert (F : Forall (fun a => sl_part (snd a) = None -> sl_key (snd a) = $"grain_type" -> fst a = $"grain_type") (slots (o_class o))).
    { unfold slots. apply Forall_app. split; [destruct (o_class o); cbn [class_slots]; repeat (apply Forall_cons; [discriminate|]); apply Forall_nil|].
      cbn [common_slots]. apply Forall_cons; [reflexivity|]. repeat (apply Forall_cons; [intros _ K; vm_compute in K; discriminate K|]). apply Forall_nil. }
    intros P K. apply N. exact (proj1 (Forall_forall _ _) F _ (dget_in _ _ _ Hs) P K).
Qed.
Theorem assignment_faithful o n so v o' : shaped o -> faithful o -> n <> $"grain_type" -> dget n (sorts (o_class o)) = Some so -> set_attr n v o = Ok o' -> faithful o'.
Proof. intros S F N H W. apply settled_faithful. exact (assignment_settled o n so v o' S (faithful_settled _ F) N H W). Qed.

(** ** Copies. *)
Theorem copy_plain now o : faithful o -> o_class o <> KEvent -> copy_obj now o = Ok (copied o).
Proof.
  intros [C H] N. specialize (H now). unfold copy_obj. assert (D : get_data o = Ok (o_data o)) by (unfold get_data; destruct (o_class o); congruence). rewrite D. cbn [rbind]. unfold GrainFactory. rewrite C. cbn [rbind].
  assert (NB : forall a, not_bytes (o_class o) a) by (intros a; unfold not_bytes; destruct (o_class o); try exact I; congruence).
  pose proof (init_again _ now now _ _ (arg_of_data (o_data o)) _ (NB ANone) (NB _) H) as E. cbn [o_meta] in E. rewrite E. f_equal. unfold copied, mk. destruct (o_data o), (o_class o); try reflexivity; congruence.
Qed.
