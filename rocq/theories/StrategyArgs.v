From Coq Require Import String Lia ZifyBool ZifyNat.
From Verif Require Import Base BaseProofs PyValue PyValueProofs Json JsonProofs CogEnums VideoLayout GrainObj Event EventSpec BuildSpec BuildProofs BuildMain BuildKw
  GrainSet GrainCopy Tools Strategies StrategySpec StrategyProofs.
Local Open Scope list_scope.

(** ** From an argument to the value drawn for it. *)
Lemma concat_get t (A : str -> sarg) n s : forall attrs ls, map_res (fun n => strategy_of t n (A n)) attrs = Ok ls -> In n attrs -> strategy_of t n (A n) = Ok [(n, s)] ->
  dget n (concat ls) = Some s.
Proof.
  induction attrs as [|m attrs IH]; intros ls H I S; [destruct I|]. cbn [map_res] in H. apply rbind_ok in H as (x & X & H). apply rbind_ok in H as (r & R & H). apply Ok_eq in H. subst ls.
  cbn [concat]. destruct (list_eq_dec Z.eq_dec m n) as [->|N].
  - rewrite S in X. apply Ok_eq in X. subst x. cbn [app dget]. rewrite zlist_eqb_refl. reflexivity.
  - destruct I as [I|I]; [destruct (N I)|]. assert (E : x = [] \/ exists s', x = [(m, s')]).
    { unfold strategy_of in X. assert (U : rbind (strategy_for m t) (fun s => Ok [(m, s)]) = Ok x -> exists s', x = [(m, s')]).
      { intros U. apply rbind_ok in U as (s' & _ & U). apply Ok_eq in U. eauto. }
      destruct (A m) as [| |v|s']; [right; auto|left; apply Ok_eq in X; auto| |right; apply Ok_eq in X; eauto]. right. destruct v; auto; apply Ok_eq in X; eauto. }
    destruct E as [->|[s' ->]]; cbn [app dget]; [exact (IH r R I S)|]. destruct (zlist_eqb n m) eqn:Q; [apply zlist_eqb_eq in Q; congruence|]. exact (IH r R I S).
Qed.
Lemma drawn_get l d n s : drawn l d -> dget n l = Some s -> exists v, dget n d = Some v /\ can_draw s v.
Proof.
  intros D. induction D as [|[m s'] [m' v] l d [E C] D IH]; [discriminate|]. cbn [fst snd] in *. subst m'. cbn [dget]. destruct (zlist_eqb n m) eqn:Q; [|exact IH].
  intros X. injection X as <-. eauto.
Qed.
Lemma get_map {A B} (f : str -> A -> B) n : forall l : list (str * A), dget n (map (fun p => (fst p, f (fst p) (snd p))) l) = option_map (f n) (dget n l).
Proof.
  induction l as [|[m a] l IH]; [reflexivity|]. cbn [map dget fst snd]. destruct (zlist_eqb n m) eqn:Q; [|exact IH]. apply zlist_eqb_eq in Q. subst m. reflexivity.
Qed.
Lemma get_del {A} n m : n <> m -> forall l : list (str * A), dget n (ddel m l) = dget n l.
Proof.
  intros N. induction l as [|[k a] l IH]; [reflexivity|]. cbn [ddel]. destruct (zlist_eqb m k) eqn:Q; cbn [dget].
  - apply zlist_eqb_eq in Q. subst k. destruct (zlist_eqb n m) eqn:Q2; [apply zlist_eqb_eq in Q2; congruence|reflexivity].
  - destruct (zlist_eqb n k); [reflexivity|exact IH].
Qed.
Lemma call_get ps args k n a : call ps args = Ok k -> dget n args = Some a -> dhas n ps = true /\ dget n k = Some a.
Proof.
  unfold call. intros H G. destruct (forallb _ args) eqn:F; [|discriminate H]. apply Ok_eq in H. subst k.
  assert (P : dhas n ps = true).
  { rewrite forallb_forall in F. assert (I : exists b, In (n, b) args).
    { clear F. induction args as [|[m b] args IH]; [discriminate G|]. cbn [dget] in G. destruct (zlist_eqb n m) eqn:Q; [apply zlist_eqb_eq in Q; subst m; exists b; left; reflexivity|].
      destruct (IH G) as [c I]. exists c. right. exact I. }
    destruct I as [b I]. exact (F _ I). }
  split; [exact P|]. rewrite (get_map (fun m b => match dget m args with Some a => a | None => b end)). rewrite G. unfold dhas in P. destruct (dget n ps); [reflexivity|discriminate P].
Qed.
Definition says (a : sarg) : Prop := exists v, wanted a v.
Lemma passed_get t k n a : dget n k = Some a -> says a -> ~ (t = $"coded_audio" /\ n = $"creation_timestamp") -> dget n (passed t k) = Some a.
Proof.
  intros G [v W] N. unfold passed. destruct (zlist_eqb t $"coded_audio") eqn:T.
  - apply zlist_eqb_eq in T. rewrite get_del; [exact G|]. intros ->. apply N. auto.
  - destruct (zlist_eqb t $"event"); [|exact G]. rewrite (get_map event_default).
    rewrite G. cbn [option_map]. destruct a; try reflexivity. destruct W.
Qed.
Lemma named t n : In t grain_types -> dhas n (params t) = true -> n <> $"format" -> In n (attributes_for t).
Proof.
  intros T P N. assert (I : In n (map fst (params t))).
  { unfold dhas in P. destruct (dget n (params t)) as [a|] eqn:G; [|discriminate P]. clear P. revert G. generalize (params t). induction l as [|[m b] l IH]; [discriminate|]. cbn [dget map fst].
    destruct (zlist_eqb n m) eqn:Q; [apply zlist_eqb_eq in Q; left; congruence|]. intros G. right. auto. }
  assert (F : forallb (fun t => forallb (fun n => zlist_eqb n $"format" || existsb (zlist_eqb n) (attributes_for t)) (map fst (params t))) grain_types = true) by (vm_compute; reflexivity).
  rewrite forallb_forall in F. specialize (F t T). rewrite forallb_forall in F. specialize (F n I). apply orb_true_iff in F as [F|F]; [apply zlist_eqb_eq in F; contradiction|].
  apply existsb_exists in F as (m & M & E). apply zlist_eqb_eq in E. subst m. exact M.
Qed.
Lemma asked_value t args l d n a : In t grain_types -> grains t args = Ok l -> drawn l d -> dget n args = Some a -> (forall v, wanted a v -> v <> PNone) -> says a -> n <> $"format" ->
  ~ (t = $"coded_audio" /\ n = $"creation_timestamp") -> In n (attributes_for t) /\ exists v, wanted a v /\ dget n d = Some v.
Proof.
  intros T G D A NN S NF NC. unfold grains in G. destruct (existsb (zlist_eqb t) grain_types); [|discriminate G]. apply rbind_ok in G as (k & K & G).
  destruct (call_get _ _ _ _ _ K A) as [P KA]. pose proof (named t n T P NF) as I. split; [exact I|]. pose proof (passed_get t k n a KA S NC) as PA.
  unfold grain_strategy in G. apply rbind_ok in G as (ls & M & G). apply Ok_eq in G. subst l.
  assert (X : exists s, strategy_of t n a = Ok [(n, s)] /\ forall v, can_draw s v -> wanted a v).
  { destruct S as [v0 W0]. destruct a as [| |v|s]; [destruct W0|destruct W0| |exists s; split; [reflexivity|auto]].
    exists (SJust v). split; [|auto]. pose proof (NN v eq_refl) as NV. unfold strategy_of. destruct v; try reflexivity. destruct (NV eq_refl). }
  destruct X as (s & SO & W). set (A' := fun n => match dget n (passed t k) with Some a => a | None => Unset end).
  assert (E : dget n (concat ls) = Some s).
  { apply (concat_get t A' n s (attributes_for t) ls M I). unfold A'. rewrite PA. exact SO. }
  destruct (drawn_get _ _ _ _ D E) as (v & V & C). exists v. auto.
Qed.

(** ** From the value drawn to the attribute. *)
Lemma eq_int z : py_eq (PInt z) (PInt z) = true. Proof. apply py_eq_refl. constructor. Qed.
Lemma eq_str s : py_eq (PStr s) (PStr s) = true. Proof. apply py_eq_refl. constructor. Qed.
Lemma eq_time t : py_eq (PTime t) (PTime t) = true. Proof. apply py_eq_refl. constructor. Qed.
Lemma eq_uuid u : py_eq (PUuid u) (PUuid u) = true. Proof. apply py_eq_refl. constructor. Qed.
Lemma frac_value v r : pv_ok v -> rbind (mk_frac v (PInt 1)) (fun f => match f with PFrac n d => Ok (n, d) | _ => Err EType end) = Ok r ->
  exists n d, r = (n, d) /\ 0 < d /\ Z.gcd n d = 1 /\ py_eq v (PFrac n d) = true.
Proof.
  intros O H. assert (X : exists n d, as_q v = Some (n, d) /\ 0 < d /\ Z.gcd n d = 1).
  { destruct v; try discriminate H; cbn [as_q].
    - eexists; eexists. split; [reflexivity|]. split; [lia|]. apply Z.gcd_1_r.
    - eexists; eexists. split; [reflexivity|]. split; [lia|]. apply Z.gcd_1_r.
    - inversion O; subst. eauto 6. }
  destruct X as (n & d & Q & D & G). exists n, d. unfold mk_frac in H. rewrite Q in H. cbn [as_q] in H. unfold frac in H. rewrite !Z.mul_1_r in H. destruct (d =? 0) eqn:E; [lia|].
  rewrite G, Z.sgn_pos in H by lia. rewrite !Z.mul_1_l, !Z.div_1_r in H. cbn [rbind] in H. apply Ok_eq in H. split; [auto|]. split; [exact D|]. split; [exact G|].
  destruct v; try discriminate Q; cbn [py_eq as_q] in *; injection Q as <- <-; rewrite !Z.eqb_refl; reflexivity.
Qed.
Lemma common_shows rate duration now type d k o n v : arg_kw rate duration d = Ok k -> common_are k now type o -> In n common_names -> dget n d = Some v -> v <> PNone -> pv_ok v ->
  exists w, getattr o n = Ok w /\ py_eq v w = true.
Proof.
  intros H [Ct Cs Cf Cc Co Cy Cr Cd] I G NN O. unfold arg_kw in H. apply rbind_ok in H as (s & Hs & H). apply rbind_ok in H as (f & Hf & H). apply rbind_ok in H as (og & Ho & H).
  apply rbind_ok in H as (y & Hy & H). apply rbind_ok in H as (c & Hc & H). apply rbind_ok in H as (r & Hr & H). apply rbind_ok in H as (u & Hu & H). apply Ok_eq in H. subst k.
  cbn [k_src k_flow k_origin k_sync k_creation k_rate k_duration] in *. unfold common_names in I. cbn [In] in I. repeat destruct I as [<-|I].
  - unfold arg_uuid in Hs. rewrite G in Hs. destruct v; try discriminate Hs; [destruct (NN eq_refl)|]. apply Ok_eq in Hs. subst s. exists (PUuid u0). split; [apply Cs; reflexivity|apply eq_uuid].
  - unfold arg_uuid in Hf. rewrite G in Hf. destruct v; try discriminate Hf; [destruct (NN eq_refl)|]. apply Ok_eq in Hf. subst f. exists (PUuid u0). split; [apply Cf; reflexivity|apply eq_uuid].
  - unfold arg_time in Ho. rewrite G in Ho. destruct v; try discriminate Ho; [destruct (NN eq_refl)|]. apply Ok_eq in Ho. subst og. exists (PTime t). split; [exact Co|apply eq_time].
  - unfold arg_time in Hy. rewrite G in Hy. destruct v; try discriminate Hy; [destruct (NN eq_refl)|]. apply Ok_eq in Hy. subst y. exists (PTime t). split; [exact Cy|apply eq_time].
  - unfold arg_time in Hc. rewrite G in Hc. destruct v; try discriminate Hc; [destruct (NN eq_refl)|]. apply Ok_eq in Hc. subst c. exists (PTime t). split; [exact Cc|apply eq_time].
  - unfold arg_frac in Hr. rewrite G in Hr. destruct (frac_value v r O Hr) as (a & b & -> & B & Gc & E). exists (PFrac a b). split; [exact (Cr a b eq_refl B Gc)|exact E].
  - unfold arg_frac in Hu. rewrite G in Hu. destruct (frac_value v u O Hu) as (a & b & -> & B & Gc & E). exists (PFrac a b). split; [exact (Cd a b eq_refl B Gc)|exact E].
  - destruct I.
Qed.
Lemma int_shows n x d z o v : arg_int n x d = Ok z -> attr_is o n (PInt z) -> dget n d = Some v -> exists w, getattr o n = Ok w /\ py_eq v w = true.
Proof. unfold arg_int. intros H A G. rewrite G in H. destruct v; try discriminate H. apply Ok_eq in H. subst z0. exists (PInt z). split; [exact A|apply eq_int]. Qed.
Lemma int_none_shows n y d z o v : arg_int_or_none n d = Ok z -> attr_is o n (or_else (option_map PInt z) y) -> dget n d = Some v -> v <> PNone -> exists w, getattr o n = Ok w /\ py_eq v w = true.
Proof.
  unfold arg_int_or_none. intros H A G NN. rewrite G in H. destruct v; try discriminate H; [destruct (NN eq_refl)|]. apply Ok_eq in H. subst z. exists (PInt z0). split; [exact A|apply eq_int].
Qed.
Lemma shows_plain o n v : zlist_eqb n $"unit_offsets" = false -> zlist_eqb n $"event_data" = false -> (exists w, getattr o n = Ok w /\ py_eq v w = true) -> shows_value o n v.
Proof. unfold shows_value. intros -> -> H. exact H. Qed.
Lemma common_name n : In n common_names -> zlist_eqb n $"unit_offsets" = false /\ zlist_eqb n $"event_data" = false.
Proof.
  intros I. assert (F : forallb (fun n => negb (zlist_eqb n $"unit_offsets") && negb (zlist_eqb n $"event_data")) common_names = true) by (vm_compute; reflexivity).
  rewrite forallb_forall in F. specialize (F n I). apply andb_true_iff in F as [F1 F2]. split; [destruct (zlist_eqb n $"unit_offsets")|destruct (zlist_eqb n $"event_data")]; trivial; discriminate.
Qed.
(** What is needed of a value. *)
Definition usable (n : str) (v : pv) : Prop := v <> PNone /\ pv_ok v /\ (n = $"cog_frame_layout" -> exists z, v = PInt z /\ member frame_layouts z = true).
Lemma dest6 (t : str) : In t grain_types -> t = $"empty" \/ t = $"audio" \/ t = $"coded_audio" \/ t = $"event" \/ t = $"video" \/ t = $"coded_video".
Proof. unfold grain_types. cbn [In]. intros H. repeat destruct H as [<-|H]; auto 10. destruct H. Qed.
Ltac kill := exfalso; match goal with H : ?x <> ?x |- _ => destruct (H eq_refl) end.
Ltac binds H := repeat match type of H with rbind _ _ = Ok _ => let x := fresh "x" in let X := fresh "X" in apply rbind_ok in H as (x & X & H) end.
Lemma common_value rate duration now type d k o n v : arg_kw rate duration d = Ok k -> common_are k now type o -> In n common_names -> dget n d = Some v -> usable n v -> shows_value o n v.
Proof. intros K C I G (NN & O & _). destruct (common_name n I). apply shows_plain; trivial. exact (common_shows _ _ _ _ _ _ _ _ _ K C I G NN O). Qed.
Lemma layout_shows n z o d v l : n = $"cog_frame_layout" -> arg_int n z d = Ok l -> dget n d = Some v -> usable n v -> (member frame_layouts l = true -> attr_is o n (PInt l)) ->
  exists w, getattr o n = Ok w /\ py_eq v w = true.
Proof.
  intros -> H G (_ & _ & U) A. destruct (U eq_refl) as (z' & -> & M). pose proof H as H'. unfold arg_int in H'. rewrite G in H'. apply Ok_eq in H'. subst z'.
  exact (int_shows _ _ _ _ _ _ H (A M) G).
Qed.
Lemma entries_same l xs : map_res three l = Ok xs -> Forall2 same_entry l (map entry_of xs).
Proof.
  revert xs. induction l as [|v l IH]; intros xs H; cbn [map_res] in H.
  - apply Ok_eq in H. subst xs. constructor.
  - apply rbind_ok in H as ([[path pre] post] & T & H). apply rbind_ok in H as (r & R & H). apply Ok_eq in H. subst xs. constructor; [|exact (IH r R)].
    unfold three in T. destruct v; try discriminate T. cbn [sub] in T. unfold ditem in T. destruct (dget $"path" d) as [a|] eqn:A; [|discriminate T]. cbn [rbind] in T.
    destruct (dget $"pre" d) as [b|] eqn:B; [|discriminate T]. cbn [rbind] in T. destruct (dget $"post" d) as [c|] eqn:C; [|discriminate T]. cbn [rbind] in T.
    apply Ok_eq in T. apply pair_equal_spec in T as [T <-]. apply pair_equal_spec in T as [<- <-].
    exists d, (new_entry a b c), a, b, c. split; [reflexivity|]. split; [reflexivity|]. split; [exact A|]. split; [exact B|]. split; [exact C|].
    split; [|split]; destruct b, c; reflexivity.
Qed.
Lemma ints_of l zs : map_res (fun v => match v with PInt z => Ok z | _ => Err EUnsupported end) l = Ok zs -> l = map PInt zs.
Proof.
  revert zs. induction l as [|v l IH]; intros zs H; cbn [map_res] in H; [apply Ok_eq in H; subst; reflexivity|].
  apply rbind_ok in H as (z & Z & H). apply rbind_ok in H as (r & R & H). apply Ok_eq in H. subst zs. destruct v; try discriminate Z. apply Ok_eq in Z. subst z0. cbn [map]. rewrite <- (IH r R). reflexivity.
Qed.
Lemma shown_value t now d o n v : In t grain_types -> build t now d = Ok o -> In n (attributes_for t) -> n <> $"cog_frame_format" -> n <> $"cog_audio_format" -> dget n d = Some v -> usable n v -> shows_value o n v.
Proof.
  intros T B I N1 N2 G U. unfold attributes_for in I. apply in_app_iff in I.
  destruct (dest6 t T) as [->|[->|[->|[->|[->| ->]]]]]; cbv beta iota delta [build] in B.
  - change (rbind (arg_kw (0, 1) (0, 1) d) (fun k => kw_factory now k ANone) = Ok o) in B. apply rbind_ok in B as (k & K & B). destruct (empty_kw _ _ _ _ B) as (_ & C & _).
    destruct I as [I|I]; [|destruct I]. exact (common_value _ _ _ _ _ _ _ _ _ K C I G U).
  - match type of B with _ = _ => change (rbind (arg_kw (25, 1) (1, 25) d) (fun k => rbind (arg_int $"cog_audio_format" 0xffffffff d) (fun f => rbind (arg_int $"samples" 0 d) (fun s =>
      rbind (arg_int $"channels" 0 d) (fun c => rbind (arg_int $"sample_rate" 48000 d) (fun r => kw_audio now k f s c r ANone))))) = Ok o) in B end.
    binds B. destruct (audio_kw _ _ _ _ _ _ _ _ B) as (C & _ & A1 & A2 & A3 & _). destruct I as [I|I]; [exact (common_value _ _ _ _ _ _ _ _ _ X C I G U)|].
    cbn [zlist_eqb] in I. change (In n [$"cog_audio_format"; $"samples"; $"channels"; $"sample_rate"]) in I. cbn [In] in I.
    repeat destruct I as [<-|I]; try (destruct I; fail); try kill; (apply shows_plain; [reflexivity|reflexivity|]).
    + exact (int_shows _ _ _ _ _ _ X1 A1 G).
    + exact (int_shows _ _ _ _ _ _ X2 A2 G).
    + exact (int_shows _ _ _ _ _ _ X3 A3 G).
  - change (rbind (arg_kw (25, 1) (1, 25) d) (fun k => rbind (arg_int $"cog_audio_format" 0xffffffff d) (fun f => rbind (arg_int $"samples" 0 d) (fun s =>
      rbind (arg_int $"channels" 0 d) (fun c => rbind (arg_int $"priming" 0 d) (fun p => rbind (arg_int $"remainder" 0 d) (fun m =>
      rbind (arg_int $"sample_rate" 48000 d) (fun r => kw_coded_audio now k f s c p m r None ANone))))))) = Ok o) in B.
    binds B. destruct (coded_audio_kw _ _ _ _ _ _ _ _ _ _ _ B) as (C & _ & A1 & A2 & A3 & A4 & A5 & _). destruct I as [I|I]; [exact (common_value _ _ _ _ _ _ _ _ _ X C I G U)|].
    change (In n [$"cog_audio_format"; $"samples"; $"channels"; $"sample_rate"; $"priming"; $"remainder"]) in I. cbn [In] in I.
    repeat destruct I as [<-|I]; try (destruct I; fail); try kill; (apply shows_plain; [reflexivity|reflexivity|]).
    + exact (int_shows _ _ _ _ _ _ X1 A1 G).
    + exact (int_shows _ _ _ _ _ _ X2 A2 G).
    + exact (int_shows _ _ _ _ _ _ X5 A3 G).
    + exact (int_shows _ _ _ _ _ _ X3 A4 G).
    + exact (int_shows _ _ _ _ _ _ X4 A5 G).
  - match type of B with _ = _ => change ((if negb (forallb (fun n => dhas n d) (attributes_for $"event")) then Err EType else
      rbind (arg_kw (25, 1) (1, 25) d) (fun k => rbind (arg_text $"event_type" d) (fun kind => rbind (arg_text $"topic" d) (fun topic =>
      rbind (kw_event now k kind topic ANone) (fun o => rbind (rbind (ditem $"event_data" d) as_list) (fun l => append_all l o)))))) = Ok o) in B end.
    destruct (negb _); [discriminate B|]. apply rbind_ok in B as (k & K & B). apply rbind_ok in B as (kind & Kd & B). apply rbind_ok in B as (topic & Tp & B). rewrite event_shape in B. cbn [rbind] in B.
    apply rbind_ok in B as (l & L & B). rewrite append_all_shape in B. apply rbind_ok in B as (xs & XS & B). apply Ok_eq in B. subst o. cbn [app].
    destruct I as [I|I]; [exact (common_value _ _ _ _ _ _ _ _ _ K (kw_common KEvent now k _ None None ltac:(discriminate)) I G U)|].
    change (In n [$"event_type"; $"topic"; $"event_data"]) in I. cbn [In] in I. repeat destruct I as [<-|I]; try (destruct I; fail).
    + apply shows_plain; [reflexivity|reflexivity|]. unfold arg_text in Kd. rewrite G in Kd. destruct v; try discriminate Kd. apply Ok_eq in Kd. subst s. exists (PStr kind). split; [reflexivity|apply eq_str].
    + apply shows_plain; [reflexivity|reflexivity|]. unfold arg_text in Tp. rewrite G in Tp. destruct v; try discriminate Tp. apply Ok_eq in Tp. subst s. exists (PStr topic). split; [reflexivity|apply eq_str].
    + change (exists l es, v = PList l /\ event_entries (kw_obj KEvent now k (event_part kind topic (map entry_of xs)) None None) = Ok es /\ Forall2 same_entry l es).
      unfold ditem in L. rewrite G in L. cbn [rbind] in L. destruct v; try discriminate L. apply Ok_eq in L. subst l0. exists l, (map entry_of xs). split; [reflexivity|]. split; [reflexivity|].
      exact (entries_same l xs XS).
  - change (rbind (arg_kw (25, 1) (1, 25) d) (fun k => rbind (arg_int $"cog_frame_format" UNKNOWN_FRAME d) (fun f => rbind (arg_int $"width" 1920 d) (fun w =>
      rbind (arg_int $"height" 1080 d) (fun h => rbind (arg_int $"cog_frame_layout" 0xfffffffe d) (fun l => kw_video now k f w h l ANone))))) = Ok o) in B.
    binds B. destruct (video_kw _ _ _ _ _ _ _ _ B) as (C & _ & A1 & A2 & _ & A3 & _). destruct I as [I|I]; [exact (common_value _ _ _ _ _ _ _ _ _ X C I G U)|].
    change (In n [$"cog_frame_format"; $"width"; $"height"; $"cog_frame_layout"]) in I. cbn [In] in I.
    repeat destruct I as [<-|I]; try (destruct I; fail); try kill; (apply shows_plain; [reflexivity|reflexivity|]).
    + exact (int_shows _ _ _ _ _ _ X1 A1 G).
    + exact (int_shows _ _ _ _ _ _ X2 A2 G).
    + exact (layout_shows _ _ _ _ _ _ eq_refl X3 G U A3).
  - change (rbind (arg_kw (25, 1) (1, 25) d) (fun k => rbind (arg_int $"cog_frame_format" UNKNOWN_FRAME d) (fun f => rbind (arg_int $"origin_width" 1920 d) (fun ow =>
      rbind (arg_int $"origin_height" 1080 d) (fun oh => rbind (arg_int_or_none $"coded_width" d) (fun cw => rbind (arg_int_or_none $"coded_height" d) (fun ch =>
      rbind (arg_bool_or_none $"is_key_frame" d) (fun key => rbind (arg_int_or_none $"temporal_offset" d) (fun temporal =>
      rbind (arg_int $"cog_frame_layout" 0xfffffffe d) (fun l => rbind (arg_ints $"unit_offsets" d) (fun u =>
      kw_coded_video now k f ow oh cw ch key temporal None l u ANone)))))))))) = Ok o) in B.
    binds B. destruct (coded_video_kw _ _ _ _ _ _ _ _ _ _ _ _ _ _ B) as (C & _ & A1 & A2 & A3 & A4 & A5 & A6 & A7 & _ & A8). destruct I as [I|I]; [exact (common_value _ _ _ _ _ _ _ _ _ X C I G U)|].
    change (In n [$"cog_frame_format"; $"coded_width"; $"coded_height"; $"cog_frame_layout"; $"origin_width"; $"origin_height"; $"is_key_frame"; $"temporal_offset"; $"unit_offsets"]) in I. cbn [In] in I.
    assert (NN : v <> PNone) by apply U.
    repeat destruct I as [<-|I]; try (destruct I; fail); try kill; try (apply shows_plain; [reflexivity|reflexivity|]).
    + unfold arg_int_or_none in X3. rewrite G in X3. destruct v; try discriminate X3; [destruct (NN eq_refl)|]. apply Ok_eq in X3. subst x3. exists (PInt z). split; [exact A3|apply eq_int].
    + unfold arg_int_or_none in X4. rewrite G in X4. destruct v; try discriminate X4; [destruct (NN eq_refl)|]. apply Ok_eq in X4. subst x4. exists (PInt z). split; [exact A4|apply eq_int].
    + exact (layout_shows _ _ _ _ _ _ eq_refl X7 G U A8).
    + exact (int_shows _ _ _ _ _ _ X1 A1 G).
    + exact (int_shows _ _ _ _ _ _ X2 A2 G).
    + unfold arg_bool_or_none in X5. rewrite G in X5. destruct v; try discriminate X5; [destruct (NN eq_refl)|]. apply Ok_eq in X5. subst x5. exists (PBool b). split; [exact A5|]. apply py_eq_refl. constructor.
    + exact (int_none_shows _ _ _ _ _ _ X6 A6 G NN).
    + unfold arg_ints in X8. rewrite G in X8. destruct v; try discriminate X8; [destruct (NN eq_refl)|]. apply rbind_ok in X8 as (zs & Zs & X8). apply Ok_eq in X8. subst x8. apply ints_of in Zs. subst l.
      change (exists l, PList (map PInt zs) = PList l /\ offsets o = Ok l). exists (map PInt zs). split; [reflexivity|exact A7].
Qed.
Lemma no_format_param n t : dhas n (params t) = true -> In t grain_types -> n <> $"cog_frame_format" /\ n <> $"cog_audio_format".
Proof.
  intros P T. assert (F : forallb (fun t => negb (dhas $"cog_frame_format" (params t)) && negb (dhas $"cog_audio_format" (params t))) grain_types = true) by (vm_compute; reflexivity).
  rewrite forallb_forall in F. specialize (F t T). apply andb_true_iff in F as [F1 F2]. split; intros ->; [rewrite P in F1|rewrite P in F2]; discriminate.
Qed.
Theorem arguments_honoured t args now o n a : can_be t args now (Ok o) -> dget n args = Some a -> sensible n a -> n <> $"format" -> ~ (t = $"coded_audio" /\ n = $"creation_timestamp") -> honoured o n a.
Proof.
  intros (l & d & G & D & B) A [S V] NF NC.
  assert (T : In t grain_types).
  { unfold grains in G. destruct (existsb (zlist_eqb t) grain_types) eqn:E; [|discriminate G]. apply existsb_exists in E as (u & I & E). apply zlist_eqb_eq in E. subst u. exact I. }
  destruct (asked_value t args l d n a T G D A (fun v W => proj1 (V v W)) S NF NC) as (I & v & W & Dv). exists v. split; [exact W|].
  assert (P : dhas n (params t) = true).
  { unfold grains in G. destruct (existsb (zlist_eqb t) grain_types); [|discriminate G]. apply rbind_ok in G as (k & K & _). exact (proj1 (call_get _ _ _ _ _ K A)). }
  destruct (no_format_param n t P T) as [N1 N2]. exact (shown_value t now d o n v T B I N1 N2 Dv (V v W)).
Qed.
