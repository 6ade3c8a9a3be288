From Coq Require Import String Lia ZifyBool ZifyNat.
From Verif Require Import Base BaseProofs PyValue PyValueProofs Json JsonProofs CogEnums GrainObj Difflib DifflibProofs Compare CompareSpec CompareProofs CompareTree.
Local Open Scope list_scope.

(** ** More exclusions. *)
Definition eases (skip : str -> Prop) (o o' : list copt) : Prop :=
  (forall id, ~ skip id -> waived o id -> waived o' id) /\
  (forall id m, In (OExpect id m) o <-> In (OExpect id m) o') /\ (forall p m, In (OPsnr p m) o <-> In (OPsnr p m) o').
Definition names : list str :=
  [$"grain_type"; $"src_id"; $"flow_id"; $"rate"; $"duration"; $"length"; $"origin_timestamp"; $"sync_timestamp"; $"timelabels"; $"data";
   $"event_type"; $"topic"; $"event_data"; $"cog_audio_format"; $"samples"; $"channels"; $"sample_rate"; $"priming"; $"remainder";
   $"cog_frame_format"; $"width"; $"height"; $"cog_frame_layout"; $"coded_width"; $"coded_height"; $"origin_width"; $"origin_height";
   $"is_key_frame"; $"temporal_offset"; $"unit_offsets"].
Definition clean (skip : str -> Prop) : Prop :=
  (forall n, In n names -> ~ skip (path n)) /\
  (forall n rest, In n [$"timelabels"; $"event_data"; $"unit_offsets"] -> ~ skip (path n ++ rest)) /\ forall r, ~ skip ($"len(" ++ r).
Lemma in_names n l : In n l -> forallb (fun x => existsb (zlist_eqb x) names) l = true -> In n names.
Proof.
  intros H F. rewrite forallb_forall in F. specialize (F n H). apply existsb_exists in F as (m & Hm & E). apply zlist_eqb_eq in E. subst m. exact Hm.
Qed.
Ltac listed := match goal with |- In ?n names => apply (in_names n [n]); [left; reflexivity|reflexivity] end.
Lemma expected_mono skip o o' id d : eases skip o o' -> expected o id d -> expected o' id d.
Proof.
  intros (_ & E & _) [A B]. split; [intros m Hm; apply A, E, Hm|]. intros N. apply B. intros m Hm. apply (N m), E, Hm.
Qed.
Lemma agree_mono skip o o' a b n : eases skip o o' -> ~ skip (path n) -> agree o a b n -> agree o' a b n.
Proof. intros (W & _) S [H|H]; [left; apply W; auto|right; exact H]. Qed.
Lemma times_mono skip o o' a b n : eases skip o o' -> ~ skip (path n) -> times_agree o a b n -> times_agree o' a b n.
Proof.
  intros E S [H|(s & t & H1 & H2 & H3)]; [left; apply E; auto|right]. exists s, t. split; auto. split; auto. eapply expected_mono; eauto.
Qed.
Lemma lists_mono {A} skip o o' (el el' : str -> A -> A -> Prop) id a b : eases skip o o' -> ~ skip ($"len(" ++ id ++ $")") ->
  (forall i, ~ skip (at_index id i)) -> (forall i x y, el (at_index id i) x y -> el' (at_index id i) x y) ->
  lists_agree o el id a b -> lists_agree o' el' id a b.
Proof.
  intros E S1 S2 HE [A1 B]. split.
  - destruct A1 as [A1|A1]; [left; apply E; auto|right; auto].
  - intros i Hi. destruct (B i Hi) as [C|(x & y & C1 & C2 & C3)]; [left; apply E; auto|right]. exists x, y. auto.
Qed.
Lemma dicts_mono skip o o' id d e : eases skip o o' -> (forall k, ~ skip (at_key id k)) -> dicts_agree o id d e -> dicts_agree o' id d e.
Proof. intros E S H k Hk. destruct (H k Hk) as [W|W]; [left; apply E; auto|right; auto]. Qed.
Lemma index_app id i : exists rest, at_index id i = id ++ rest.
Proof. eexists; reflexivity. Qed.
Lemma key_app n i k : exists rest, at_key (at_index n i) k = n ++ rest.
Proof. unfold at_key, at_index. rewrite <- app_assoc. eexists; reflexivity. Qed.
Lemma listed_mono skip o o' n d e : eases skip o o' -> clean skip -> In n [$"timelabels"; $"event_data"; $"unit_offsets"] ->
  lists_agree o (dicts_agree o) (path n) d e -> lists_agree o' (dicts_agree o') (path n) d e.
Proof.
  intros E (_ & C2 & C3) Hn. apply (lists_mono skip); auto.
  - intros i. destruct (index_app (path n) i) as [r ->]. auto.
  - intros i x y. apply (dicts_mono skip); auto. intros k. destruct (key_app (path n) i k) as [r ->]. auto.
Qed.
Lemma data_mono psnr skip w k o o' a b : eases skip o o' -> clean skip -> data_agree psnr w k o a b -> data_agree psnr w k o' a b.
Proof.
  intros (E1 & _ & E3) (C1 & _) [H|[(H1 & (m & Hm) & v & Hv & H)|(H1 & H)]].
  - left. apply E1; auto. apply C1. listed.
  - right; left. split; auto. split; [exists m; apply E3, Hm|]. exists v. split; auto. intros m' Hm'. apply H, E3, Hm'.
  - right; right. split; auto. intros F m Hm. apply (H1 F m), E3, Hm.
Qed.
Lemma format_mono psnr skip w k name o o' a b : eases skip o o' -> clean skip -> data_if_format psnr w name k o a b -> data_if_format psnr w name k o' a b.
Proof. intros E C H f F1 F2. apply (data_mono psnr skip w (k f) o o'); auto. Qed.
Lemma same_type_mono psnr skip t o o' a b : eases skip o o' -> clean skip -> same_type psnr t o a b -> same_type psnr t o' a b.
Proof.
  intros E C [S1 S2 S3 S4 S5 S6]. pose proof C as (C1 & C2 & C3).
  assert (AG : forall l n, forallb (fun x => existsb (zlist_eqb x) names) l = true -> In n l -> agree o a b n -> agree o' a b n).
  { intros l n F Hn. apply (agree_mono skip); auto. apply C1. eapply in_names; eauto. }
  constructor.
  - intros T. destruct (S1 T) as (A & B & D). split; [|split].
    + apply (AG [$"event_type"]); [reflexivity|left; reflexivity|exact A].
    + apply (AG [$"topic"]); [reflexivity|left; reflexivity|exact B].
    + destruct D as [D|(d & e & D1 & D2 & D3)]; [left; apply E; auto; apply C1; listed|right].
      exists d, e. split; auto. split; auto. eapply listed_mono; eauto. cbn [In]; tauto.
  - intros T. destruct (S2 T) as [A B]. split; [intros n Hn; eapply AG; [|exact Hn|apply A, Hn]; reflexivity|eapply format_mono; eauto].
  - intros T. destruct (S3 T) as [A B]. split; [intros n Hn; eapply AG; [|exact Hn|apply A, Hn]; reflexivity|eapply format_mono; eauto].
  - intros T. destruct (S4 T) as [A B]. split; [intros n Hn; eapply AG; [|exact Hn|apply A, Hn]; reflexivity|eapply format_mono; eauto].
  - intros T. destruct (S5 T) as (A & B & D). split; [|split; [|eapply format_mono; eauto]].
    + intros n Hn. destruct (A n Hn) as [W|W]; [left|right; auto]. apply E; auto. apply C1. eapply in_names; [exact Hn|reflexivity].
    + destruct B as [B|(x & y & B1 & B2 & B3)]; [left; apply E; auto; apply C1; listed|right].
      exists x, y. split; auto. split; auto. apply (lists_mono skip o o' (numbers_agree o)); auto.
      * intros i. destruct (index_app (path $"unit_offsets") i) as [r ->]. apply C2. cbn [In]; tauto.
      * intros i u v. apply (expected_mono skip); auto.
  - intros T. apply (data_mono psnr skip false Bytes o o'); auto.
Qed.
Record most psnr (opts : list copt) (a b : gobj) : Prop := {
  mo_plain : forall n, In n [$"grain_type"; $"src_id"; $"flow_id"; $"rate"; $"duration"] -> agree opts a b n;
  mo_length : agree opts a b $"length" \/
    (has_type a $"event" /\ has_type b $"event" /\ exists n, In n [$"event_type"; $"topic"; $"event_data"] /\ waived opts (path n));
  mo_times : forall n, In n [$"origin_timestamp"; $"sync_timestamp"] -> times_agree opts a b n;
  mo_labels : waived opts (path $"timelabels") \/
    exists d e, labels a = Ok d /\ labels b = Ok e /\ lists_agree opts (dicts_agree opts) (path $"timelabels") d e;
  mo_type : forall t u, getattr a $"grain_type" = Ok t -> getattr b $"grain_type" = Ok u -> py_eq t u = true -> same_type psnr t opts a b }.
Lemma most_mono psnr skip o o' a b : eases skip o o' -> clean skip -> most psnr o a b -> most psnr o' a b.
Proof.
  intros E C [P L T B Y]. pose proof C as (C1 & C2 & C3). constructor.
  - intros n Hn. apply (agree_mono skip o); auto. apply C1. eapply in_names; [exact Hn|reflexivity].
  - destruct L as [L|(L1 & L2 & n & Hn & W)]; [left|right].
    + apply (agree_mono skip o); auto. apply C1. listed.
    + split; auto. split; auto. exists n. split; auto. apply E; auto. apply C1. eapply in_names; [exact Hn|reflexivity].
  - intros n Hn. apply (times_mono skip o); auto. apply C1. eapply in_names; [exact Hn|reflexivity].
  - destruct B as [B|(d & e & B1 & B2 & B3)]; [left; apply E; auto; apply C1; listed|right].
    exists d, e. split; auto. split; auto. eapply listed_mono; eauto. cbn [In]; tauto.
  - intros t u F1 F2 F3. eapply same_type_mono; eauto.
Qed.
Lemma core_most psnr o a b : core psnr o a b <-> most psnr o a b /\ times_agree o a b $"creation_timestamp".
Proof.
  split.
  - intros [P L T B Y]. split; [constructor; auto; intros n Hn; apply T; cbn [In] in *; tauto|apply T; cbn [In]; tauto].
  - intros [[P L T B Y] C]. constructor; auto. intros n Hn. cbn [In] in Hn. destruct Hn as [<-|[<-|[<-|[]]]]; auto; apply T; cbn [In]; tauto.
Qed.
Lemma agree_most psnr o a b : grains_agree psnr o a b <-> most psnr o a b /\ (In (Include $"creation_timestamp") o -> times_agree o a b $"creation_timestamp").
Proof. split; [intros [P L T C B Y]; split; [constructor; auto|auto]|intros [[P L T B Y] C]; constructor; auto]. Qed.
Definition is_creation (id : str) : Prop := id = path $"creation_timestamp".
Lemma creation_clean : clean is_creation.
Proof.
  split; [|split].
  - intros n Hn F. unfold is_creation in F. assert (G : forallb (fun n => negb (zlist_eqb (path n) (path $"creation_timestamp"))) names = true) by reflexivity.
    rewrite forallb_forall in G. specialize (G n Hn). rewrite F, zlist_eqb_refl in G. discriminate G.
  - intros n rest [<-|[<-|[<-|[]]]] F; unfold is_creation in F; discriminate F.
  - intros r F. unfold is_creation in F. discriminate F.
Qed.
Lemma nothing_clean : clean (fun _ => False).
Proof. split; [|split]; intros; intros []. Qed.
Lemma has_include_in opts : has_include opts = true <-> In (Include $"creation_timestamp") opts.
Proof.
  unfold has_include. rewrite existsb_exists. split.
  - intros (o & H & E). destruct o; try discriminate E. apply zlist_eqb_eq in E. subst p. exact H.
  - intros H. exists (Include $"creation_timestamp"). split; auto.
Qed.
Lemma waived_app o n id : waived (o ++ [Exclude n]) id <-> waived o id \/ (path n = id \/ other_name id (path n)).
Proof.
  unfold waived. split.
  - intros (p & H & E). apply in_app_or in H as [H|[H|[]]]; [left; exists p; auto|right]. injection H as <-. exact E.
  - intros [(p & H & E)|E]; [exists p; split; auto; apply in_or_app; auto|]. exists (path n). split; auto. apply in_or_app. right; left. reflexivity.
Qed.
Lemma no_other_creation id : ~ other_name id (path $"creation_timestamp").
Proof. intros H. inversion H. Qed.
Lemma normal_eases opts : eases is_creation (normal opts) opts.
Proof.
  unfold normal. destruct (has_include opts); [split; [auto|split; tauto]|]. split; [|split].
  - intros id S W. apply waived_app in W as [W|[W|W]]; auto; [destruct S; symmetry; exact W|destruct (no_other_creation _ W)].
  - intros id m. rewrite in_app_iff. split; auto. intros [H|[H|[]]]; auto. discriminate H.
  - intros id m. rewrite in_app_iff. split; auto. intros [H|[H|[]]]; auto. discriminate H.
Qed.
Lemma eases_normal opts : eases (fun _ => False) opts (normal opts).
Proof.
  unfold normal. destruct (has_include opts); [split; [auto|split; tauto]|]. split; [|split].
  - intros id S W. apply waived_app. auto.
  - intros id m. rewrite in_app_iff. split; auto. intros [H|[H|[]]]; auto. discriminate H.
  - intros id m. rewrite in_app_iff. split; auto. intros [H|[H|[]]]; auto. discriminate H.
Qed.
Theorem compare_agree psnr key opts a b r : payload_ok a -> payload_ok b -> compare_with_key psnr key opts a b = Ok r ->
  r_equal r = true <-> grains_agree psnr opts a b.
Proof.
  intros Pa Pb H. unfold compare_with_key in H. apply rbind_ok in H as ([o' l] & Hl & H). apply Ok_eq in H. subst r. cbn [r_equal].
  rewrite (children_core _ _ _ _ _ _ Pa Pb Hl), core_most, agree_most. split.
  - intros [M T]. split; [apply (most_mono psnr is_creation (normal opts)); auto using normal_eases, creation_clean|].
    intros I. apply has_include_in in I. unfold normal in T. rewrite I in T. exact T.
  - intros [M T]. split; [apply (most_mono psnr (fun _ => False) opts); auto using eases_normal, nothing_clean|].
    destruct (has_include opts) eqn:I.
    + unfold normal. rewrite I. apply T, has_include_in, I.
    + left. unfold normal. rewrite I. apply waived_app. right; left. reflexivity.
Qed.

(** Adding exclusions keeps a match. *)
Theorem exclude_more psnr key opts opts' p a b r r' : payload_ok a -> payload_ok b ->
  compare_with_key psnr key (opts ++ opts') a b = Ok r -> compare_with_key psnr key (opts ++ OExclude p :: opts') a b = Ok r' ->
  r_equal r = true -> r_equal r' = true.
Proof.
  intros Pa Pb H H' E. apply (compare_agree _ _ _ _ _ _ Pa Pb H) in E. apply (compare_agree _ _ _ _ _ _ Pa Pb H').
  apply agree_most in E as [M T]. assert (EA : eases (fun _ => False) (opts ++ opts') (opts ++ OExclude p :: opts')).
  { split; [|split].
    - intros id _ (q & Hq & W). exists q. split; auto. rewrite in_app_iff in *. cbn [In]. tauto.
    - intros id m. rewrite !in_app_iff. cbn [In]. split; [tauto|intros [F|[F|F]]; auto; discriminate F].
    - intros id m. rewrite !in_app_iff. cbn [In]. split; [tauto|intros [F|[F|F]]; auto; discriminate F]. }
  apply agree_most. split; [eapply most_mono; eauto using nothing_clean|].
  intros I. apply (times_mono (fun _ => False) (opts ++ opts')); auto. apply T. rewrite in_app_iff in *. cbn [In] in I. destruct I as [I|[I|I]]; auto. discriminate I.
Qed.
