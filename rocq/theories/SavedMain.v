(** Whole files, and copies. *)
From Coq Require Import String Lia ZifyBool ZifyNat.
From Verif Require Import Base BaseProofs GsfPrim GsfDecode CogEnums GsfEncode GsfSpec GsfFileSpec GsfEncState GsfEncDecodeSpec PyValue PyValueProofs Json JsonProofs GrainObj BuildSpec EventSpec
  Compare CompareSpec CompareTree CompareMain CompareTotal CompareSym CompareLaws GrainGsf GrainGsfSpec GrainGsfFileSpec GrainGsfFile GrainSet GrainSetSpec GrainCopy GrainCopySpec GrainCopyProofs
  SavedSpec SavedProofs SavedEvent.
Local Open Scope list_scope.

Theorem saved psnr key opts major now o o' :
  survives major now o o' -> (o_class o = KEvent -> exists p, shows o p /\ event_survives o o' p) -> kept_exactly major o -> of_own_type o -> plain_options opts ->
  meta_ok o -> stored_ok o -> no_nan o -> can_compare psnr opts o o ->
  exists r, compare_with_key psnr key opts o o' = Ok r /\ r_equal r = true.
Proof.
  intros S E K OT PO M ST NN C. destruct (o_class o) eqn:CC; try (apply (saved_plain psnr key opts major now o o'); auto; rewrite CC; discriminate).
  destruct (E eq_refl) as (p & SH & EV). exact (saved_event psnr key opts major now o o' p S K CC SH EV OT PO M C).
Qed.
Lemma pairs_equal psnr opts a b : Forall2 (fun x y => forall key, exists r, compare_with_key psnr key opts x y = Ok r /\ r_equal r = true) a b ->
  forall n last, exists l l' last', pairwise_loop psnr opts n last a b = Ok (n + zlen a, l, l', last', true).
Proof.
  intros F. induction F as [|x y a b H F IH]; intros n last; cbn [pairwise_loop].
  - exists [], [], last. do 5 f_equal. unfold zlen. cbn [List.length]. lia.
  - destruct (H (Some (KIndex n))) as (c & E & Q). rewrite E. cbn [rbind]. rewrite Q. destruct (IH (n + 1) (Some c)) as (l & l' & last' & P). rewrite P. cbn [rbind].
    exists (c :: l), l', last'. do 5 f_equal. unfold zlen. cbn [List.length]. lia.
Qed.
Theorem pairs_all_equal psnr opts a b : Forall2 (fun x y => forall key, exists r, compare_with_key psnr key opts x y = Ok r /\ r_equal r = true) a b ->
  exists r, compare_grains_pairwise psnr false opts a b = Ok (r, zlen a) /\ r_equal r = true.
Proof.
  intros F. destruct (pairs_equal psnr opts a b F 0 None) as (l & l' & last' & P). unfold compare_grains_pairwise. rewrite P. cbn [rbind]. eexists. split; [reflexivity|reflexivity].
Qed.
Lemma items_objects psnr opts major data now os l : plain_options opts -> Forall (comparable psnr opts major) os -> Forall (fun o => o_class o = KEvent -> exists p, good_event o p) os ->
  Forall2 (comes_back major data) os l ->
  exists os', map_res (item_object now data) l = Ok os' /\ Forall2 (fun x y => forall key, exists r, compare_with_key psnr key opts x y = Ok r /\ r_equal r = true) os os'.
Proof.
  intros PO C G F. induction F as [|o i os l B F IH]; [exists []; split; [reflexivity|constructor]|].
  inversion C as [|? ? (C1 & C2 & C3 & C4 & C5 & C6) C']; subst. inversion G as [|? ? G1 G']; subst. destruct (IH C' G') as (os' & M & FF).
  destruct (B now) as (o' & I & S & E & _). exists (o' :: os'). cbn [map_res]. rewrite I, M. cbn [rbind]. split; [reflexivity|]. constructor; [|exact FF].
  intros key. apply (saved psnr key opts major now o o' S); auto. intros X. destruct (G1 X) as [p P]. exists p. split; [exact (proj1 P)|exact (E X p P)].
Qed.
Theorem file_equal psnr opts os gs seg_id stags major minor id created :
  (major = 7 \/ major = 8 \/ major = 9) -> u16 minor -> uuid_ok id -> dt_valid created = true ->
  uuid_ok seg_id -> Forall tag_fits stags -> i64 (zlen gs) ->
  zlen (enc_head id created [(mkESeg 1 seg_id None stags, 0)] []) < 4294967296 ->
  Forall (grain_fits major) (map (pair 1) gs) -> Forall2 writable os gs -> plain_options opts -> Forall (comparable psnr opts major) os ->
  exists data, GsfEncState.dumps gs seg_id stags major minor id created false = Ok data /\
    forall k strict fwd now, at_once k -> k_ids k = None ->
    exists s l os' r, decode_file k (mkFile data 0 strict fwd) = Ok (s, (l, s, Done)) /\ map_res (item_object now data) l = Ok os' /\
      compare_grains_pairwise psnr false opts os os' = Ok (r, zlen os) /\ r_equal r = true.
Proof.
  intros MJ MI ID CR SI TG N HD GF W PO C. destruct (objects_dumped os gs seg_id stags major minor id created MJ MI ID CR SI TG N HD GF W) as (data & D & R).
  exists data. split; [exact D|]. intros k strict fwd now A K. destruct (R k strict fwd A K) as (s & l & E & F).
  assert (G : Forall (fun o => o_class o = KEvent -> exists p, good_event o p) os).
  { clear - W. induction W as [|o g os gs (_ & _ & _ & H) W IH]; constructor; auto. }
  destruct (items_objects psnr opts major data now os l PO C G F) as (os' & M & FF). destruct (pairs_all_equal psnr opts os os' FF) as (r & P & Q).
  exists s, l, os', r. auto.
Qed.

(** ** A comparison looks at nothing but what can be read from the grains. *)
Lemma equalities_reads get opts names a b c : (forall n, get b n = get c n) -> equalities get opts names a b = equalities get opts names a c.
Proof. intros H. induction names as [|n names IH]; [reflexivity|]. cbn [equalities]. rewrite H, IH. reflexivity. Qed.
Lemma instants_reads opts names a b c : (forall n, getattr b n = getattr c n) -> instants opts names a b = instants opts names a c.
Proof. intros H. induction names as [|n names IH]; [reflexivity|]. cbn [instants]. rewrite H, IH. reflexivity. Qed.
Lemma no_psnr_here opts : (forall p m, ~ In (OPsnr p m) opts) -> psnr_matchers data_path opts = [].
Proof. intros H. destruct (psnr_matchers data_path opts) as [|m ms] eqn:E; [reflexivity|]. exfalso. apply (H data_path m). apply matchers_in. rewrite E. left. reflexivity. Qed.
Theorem compare_reads psnr opts a b c : reads_alike b c -> (forall p m, ~ In (OPsnr p m) opts) -> compare_grain psnr opts a b = compare_grain psnr opts a c.
Proof.
  intros (R1 & R2 & R3 & R4 & R5) N. unfold compare_grain, compare_with_key. f_equal.
  assert (NN : forall p m, ~ In (OPsnr p m) (if has_include opts then opts else opts ++ [Exclude $"creation_timestamp"])).
  { intros p m I. destruct (has_include opts); [exact (N p m I)|]. apply in_app_or in I as [I|[I|[]]]; [exact (N p m I)|discriminate I]. }
  assert (O : forall n, getattr_or_none b n = getattr_or_none c n) by (intros n; unfold getattr_or_none; rewrite R1; reflexivity).
  assert (D : forall w k o, (forall p m, ~ In (OPsnr p m) o) -> data_child psnr w k o a b = data_child psnr w k o a c).
  { intros w k o X. unfold data_child. rewrite (no_psnr_here o X). cbn [negb]. rewrite andb_false_r, R5. reflexivity. }
  assert (F : forall w k n o, (forall p m, ~ In (OPsnr p m) o) -> format_then_data psnr w k n o a b = format_then_data psnr w k n o a c).
  { intros w k n o X. unfold format_then_data, format_of. rewrite R1. destruct (rbind (getattr a n) as_number) as [f|]; [|reflexivity]. cbn [rbind].
    destruct (rbind (getattr c n) as_number) as [g|]; [|reflexivity]. cbn [rbind]. rewrite (D _ _ _ X). reflexivity. }
  unfold grain_children. set (o := if has_include opts then opts else opts ++ [Exclude $"creation_timestamp"]) in *. clearbody o.
  repeat match goal with |- context [equalities getattr ?o ?l a b] => rewrite (equalities_reads getattr o l a b c R1) end.
  rewrite (equalities_reads getattr_or_none _ _ a b c O), (instants_reads _ _ a b c R1), R2, R1, R3, R4.
  rewrite !(F _ _ _ o NN), (D _ _ o NN). reflexivity.
Qed.
Lemma waiting_reads k m b w n : k <> KEvent -> getattr (mkO k m (Some b) w) n = getattr (mkO k m (Some b) None) n.
Proof.
  intros K. unfold getattr. cbn [o_class]. destruct (dget n (class_attrs k ++ common_attrs)) as [f|] eqn:E; [|reflexivity].
  apply dget_in in E. apply in_app_or in E as [E|E].
  - destruct k; cbn [class_attrs In] in E; repeat match goal with E : _ \/ _ |- _ => destruct E as [E|E] end; try (destruct E; fail);
      (assert (F : f = snd (n, f)) by reflexivity; rewrite <- E in F; cbn [snd] in F; rewrite F; reflexivity).
  - cbn [common_attrs In] in E. repeat match goal with E : _ \/ _ |- _ => destruct E as [E|E] end; try (destruct E; fail);
      (assert (F : f = snd (n, f)) by reflexivity; rewrite <- E in F; cbn [snd] in F; rewrite F; clear E F); try reflexivity.
    unfold get_length, get_data. cbn [o_class o_data]. destruct k; try reflexivity; congruence.
Qed.
Lemma copied_reads o : o_class o <> KEvent -> payload_here o -> reads_alike (copied o) o.
Proof.
  intros K L. unfold copied. destruct o as [k m [b|] w]; cbn [o_class o_meta o_data o_wait] in *.
  - unfold reads_alike. split; [intros n; symmetry; apply waiting_reads, K|]. split; [reflexivity|]. split; [reflexivity|]. split; [reflexivity|]. unfold get_data. cbn [o_class o_data]. destruct k; try reflexivity; congruence.
  - destruct L as [L|[L W]]; [destruct L; reflexivity|]. cbn [o_class o_wait] in *. subst. repeat split.
Qed.
Theorem copies_equal psnr opts now o o' : faithful o -> o_class o <> KEvent -> payload_here o -> copy_obj now o = Ok o' -> (forall p m, ~ In (OPsnr p m) opts) ->
  forall a, compare_grain psnr opts a o' = compare_grain psnr opts a o.
Proof.
  intros F K L C N a. rewrite (copy_plain now o F K) in C. apply Ok_eq in C. subst o'. exact (compare_reads psnr opts a (copied o) o (copied_reads o K L) N).
Qed.
Theorem copy_equal psnr opts now o o' r : faithful o -> o_class o <> KEvent -> payload_here o -> copy_obj now o = Ok o' -> no_matchers opts -> meta_ok o -> stored_ok o -> no_nan o ->
  compare_grain psnr opts o o = Ok r -> compare_grain psnr opts o o' = Ok r /\ r_equal r = true.
Proof.
  intros F K L C N M S NN H. split; [rewrite (copies_equal psnr opts now o o' F K L C (proj2 N) o); exact H|]. exact (grain_refl psnr opts o r N M S NN H).
Qed.
