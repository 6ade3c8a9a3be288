From Coq Require Import String Lia ZifyBool ZifyNat.
From Verif Require Import Base BaseProofs PyValue PyValueProofs Json JsonProofs CogEnums VideoLayout GrainObj Event EventSpec BuildSpec BuildProofs BuildMain BuildKw
  GrainSet GrainSetSpec GrainCopy GrainCopySpec GrainCopyProofs GrainGsf PyValue GrainObj Tools Strategies StrategySpec StrategyProofs StrategyArgs.
Local Open Scope list_scope.

(** ** What is drawn, type by type. *)
Definition uuid_drawn (u : Z) : Prop := 0 <= u < 2 ^ 128.
Definition time_drawn (t : Z) : Prop := Z.abs t < 2 ^ 48 * 1000000000.
Record drawn_kw (r d : Z * Z) (k : kw) : Prop := {
  dk_src : exists u, k_src k = Some u /\ uuid_drawn u; dk_flow : exists u, k_flow k = Some u /\ uuid_drawn u;
  dk_origin : exists t, k_origin k = Some t /\ time_drawn t; dk_sync : exists t, k_sync k = Some t /\ time_drawn t; dk_creation : exists t, k_creation k = Some t /\ time_drawn t;
  dk_rate : k_rate k = r; dk_duration : k_duration k = d }.
Definition sampled (l : list Z) (z : Z) : Prop := member l z = true.
Definition audio_sample : list Z := Eval vm_compute in filter (fun x => x <? 0x200) audio_formats.
Definition coded_audio_sample : list Z := Eval vm_compute in filter (fun x => negb (Z.land x 0x200 =? 0) && negb (x =? 0xffffffff)) audio_formats.
Definition video_sample : list Z := Eval vm_compute in filter (fun x => Z.land (Z.shiftr x 9) 1 =? 0) frame_formats.
Definition coded_video_sample : list Z := Eval vm_compute in filter (fun x => negb (Z.land x 0x200 =? 0) && negb (x =? 0xffffffff)) frame_formats.
Definition layout_sample : list Z := Eval vm_compute in filter (fun x => negb (x =? 0xfffffffe)) frame_layouts.

Definition common_strats : list (str * strat) :=
  [($"src_id", SUuids); ($"flow_id", SUuids); ($"origin_timestamp", STimes); ($"sync_timestamp", STimes); ($"creation_timestamp", STimes)].
Lemma audio_strats : grains $"audio" [] =
  Ok (common_strats ++ [($"cog_audio_format", SSample audio_sample); ($"samples", SInts (Some (1, 16))); ($"channels", SInts (Some (1, 16))); ($"sample_rate", SSample [48000; 44100])]).
Proof. reflexivity. Qed.
Lemma coded_audio_strats : grains $"coded_audio" [] =
  Ok (common_strats ++ [($"cog_audio_format", SSample coded_audio_sample); ($"samples", SInts (Some (1, 16))); ($"channels", SInts (Some (1, 16))); ($"sample_rate", SSample [48000; 44100])]).
Proof. reflexivity. Qed.
Definition video_strats_for (w h : Z) : list (str * strat) :=
  common_strats ++ [($"cog_frame_format", SSample video_sample); ($"width", SJust (PInt w)); ($"height", SJust (PInt h)); ($"cog_frame_layout", SSample layout_sample)].
Lemma video_strats : grains $"video" [] = Ok (video_strats_for 240 135) /\ grains $"video" (template_args $"video") = Ok (video_strats_for 16 9).
Proof. split; reflexivity. Qed.
Definition offsets_strat : strat := SOr (SJust PNone) (SFilter sorted_is_true (SLists (Some 16) (SInts (Some (0, 256))))).
Definition coded_video_strats_for (w h : Z) : list (str * strat) :=
  common_strats ++ [($"cog_frame_format", SSample coded_video_sample); ($"coded_width", SJust (PInt 240)); ($"coded_height", SJust (PInt 135)); ($"cog_frame_layout", SSample layout_sample);
    ($"origin_width", SJust (PInt w)); ($"origin_height", SJust (PInt h)); ($"is_key_frame", SBools); ($"temporal_offset", SInts (Some (0, 16))); ($"unit_offsets", offsets_strat)].
Lemma coded_video_strats : grains $"coded_video" [] = Ok (coded_video_strats_for 240 135) /\ grains $"coded_video" (template_args $"coded_video") = Ok (coded_video_strats_for 16 9).
Proof. split; reflexivity. Qed.
Definition entry_strat : strat := SDict [($"path", SRegex topic_regex); ($"pre", event_value); ($"post", event_value)].
Lemma event_strats : grains $"event" [] =
  Ok (common_strats ++ [($"rate", SJust (PFrac 25 1)); ($"duration", SJust (PFrac 1 25)); ($"event_type", SRegex type_regex); ($"topic", SRegex topic_regex); ($"event_data", SLists None entry_strat)]).
Proof. reflexivity. Qed.
Lemma empty_strats : grains $"empty" [] = Ok common_strats.
Proof. reflexivity. Qed.

Lemma drawn_app l m d : drawn (l ++ m) d -> exists c e, d = c ++ e /\ drawn l c /\ drawn m e.
Proof. intros H. apply Forall2_app_inv_l in H as (c & e & H1 & H2 & ->). eauto. Qed.
Lemma drawn_cons n s l d : drawn ((n, s) :: l) d -> exists v e, d = (n, v) :: e /\ can_draw s v /\ drawn l e.
Proof. intros H. inversion H as [|? [m v] ? e [E C] F]; subst. cbn [fst snd] in *. subst m. eauto. Qed.
Lemma drawn_nil d : drawn [] d -> d = [].
Proof. intros H. inversion H. reflexivity. Qed.
Lemma uuid_inv v : can_draw SUuids v -> exists u, v = PUuid u /\ uuid_drawn u.
Proof. destruct v; intros H; try (destruct H; fail). cbn [can_draw] in H. exists u. split; [reflexivity|]. unfold uuid_drawn. lia. Qed.
Lemma time_inv v : can_draw STimes v -> exists t, v = PTime t /\ time_drawn t.
Proof. destruct v; intros H; try (destruct H; fail). cbn [can_draw] in H. exists t. split; [reflexivity|]. unfold time_drawn. change (2 ^ 48) with 281474976710656. lia. Qed.
Lemma sample_inv l v : can_draw (SSample l) v -> exists z, v = PInt z /\ sampled l z.
Proof. destruct v; intros H; try (destruct H; fail). exists z. split; [reflexivity|exact H]. Qed.
Lemma int_inv a b v : can_draw (SInts (Some (a, b))) v -> exists z, v = PInt z /\ a <= z <= b.
Proof. destruct v; intros H; try (destruct H; fail). cbn [can_draw in_bounds] in H. exists z. split; [reflexivity|lia]. Qed.
Definition common_drawn (s f o y c : Z) : dict := [($"src_id", PUuid s); ($"flow_id", PUuid f); ($"origin_timestamp", PTime o); ($"sync_timestamp", PTime y); ($"creation_timestamp", PTime c)].
Lemma common_inv d : drawn common_strats d -> exists s f o y c, d = common_drawn s f o y c /\ uuid_drawn s /\ uuid_drawn f /\ time_drawn o /\ time_drawn y /\ time_drawn c.
Proof.
  intros H. unfold common_strats in H. apply drawn_cons in H as (v1 & e1 & -> & C1 & H). apply drawn_cons in H as (v2 & e2 & -> & C2 & H). apply drawn_cons in H as (v3 & e3 & -> & C3 & H).
  apply drawn_cons in H as (v4 & e4 & -> & C4 & H). apply drawn_cons in H as (v5 & e5 & -> & C5 & H). apply drawn_nil in H. subst e5.
  apply uuid_inv in C1 as (s & -> & C1). apply uuid_inv in C2 as (f & -> & C2). apply time_inv in C3 as (o & -> & C3). apply time_inv in C4 as (y & -> & C4). apply time_inv in C5 as (c & -> & C5).
  exists s, f, o, y, c. repeat split; trivial; apply C1 || apply C2.
Qed.
Lemma kw_drawn r d s f o y c : uuid_drawn s -> uuid_drawn f -> time_drawn o -> time_drawn y -> time_drawn c -> drawn_kw r d (mkKw (Some s) (Some f) (Some o) (Some y) (Some c) r d).
Proof. intros. constructor; cbn; eauto. Qed.

(** *** Audio. *)
Definition is_audio (now : Z) (o : gobj) : Prop :=
  exists k f s c r, drawn_kw (25, 1) (1, 25) k /\ sampled audio_sample f /\ 1 <= s <= 16 /\ 1 <= c <= 16 /\ (r = 48000 \/ r = 44100) /\
    o = kw_obj KAudio now k (audio_part_kw f s c r) (Some (zeros (Z.to_nat (size_for_audio_format f c s)))) None /\ 0 <= size_for_audio_format f c s.
Lemma sampled_in l z : sampled l z -> In z l.
Proof. unfold sampled, member. intros H. apply existsb_exists in H as (x & I & E). apply Z.eqb_eq in E. subst x. exact I. Qed.
Lemma rate_inv r : sampled [48000; 44100] r -> r = 48000 \/ r = 44100.
Proof. intros H. apply sampled_in in H. cbn [In] in H. intuition auto. Qed.
Lemma audio_size_nonneg f c s : 0 <= c -> 0 <= s -> 0 <= size_for_audio_format f c s.
Proof.
  intros C S. unfold size_for_audio_format. destruct (_ =? _); [lia|]. apply Z.mul_nonneg_nonneg.
  - apply Z.mul_nonneg_nonneg; [|exact S]. destruct (_ =? _); [|exact C]. apply Z.mul_nonneg_nonneg; [apply Z.div_pos; lia|lia].
  - destruct (_ =? _); [lia|]. destruct (_ =? _); [lia|]. assert (0 <= Z.shiftr (Z.land f 15) 2); [|lia]. apply Z.shiftr_nonneg, Z.land_nonneg. lia.
Qed.
Ltac next H := let v := fresh "v" in let e := fresh "e" in let C := fresh "C" in apply drawn_cons in H as (v & e & -> & C & H).
Ltac last H := apply drawn_nil in H; subst.
Lemma audio_draws now r : can_be $"audio" [] now r -> exists o, r = Ok o /\ is_audio now o.
Proof.
  intros (l & d & G & D & B). rewrite audio_strats in G. apply Ok_eq in G. subst l. apply drawn_app in D as (d1 & d2 & -> & D1 & D).
  apply common_inv in D1 as (s & f & o & y & c & -> & Hs & Hf & Ho & Hy & Hc). next D. next D. next D. next D. last D.
  apply sample_inv in C as (fmt & -> & C). apply int_inv in C0 as (sm & -> & C0). apply int_inv in C1 as (ch & -> & C1). apply sample_inv in C2 as (rt & -> & C2). apply rate_inv in C2.
  assert (N : 0 <= size_for_audio_format fmt ch sm) by (apply audio_size_nonneg; lia).
  assert (E : build $"audio" now (common_drawn s f o y c ++ [($"cog_audio_format", PInt fmt); ($"samples", PInt sm); ($"channels", PInt ch); ($"sample_rate", PInt rt)]) =
    kw_audio now (mkKw (Some s) (Some f) (Some o) (Some y) (Some c) (25, 1) (1, 25)) fmt sm ch rt ANone) by reflexivity.
  rewrite E, (audio_shape _ _ _ _ _ _ N). eexists. split; [reflexivity|].
  exists (mkKw (Some s) (Some f) (Some o) (Some y) (Some c) (25, 1) (1, 25)), fmt, sm, ch, rt. split; [apply kw_drawn; trivial|]. repeat (split; [assumption|]). split; [reflexivity|exact N].
Qed.

(** *** Coded audio. *)
Definition is_coded_audio (now : Z) (o : gobj) : Prop :=
  exists k f s c r, drawn_kw (25, 1) (1, 25) k /\ sampled coded_audio_sample f /\ 1 <= s <= 16 /\ 1 <= c <= 16 /\ (r = 48000 \/ r = 44100) /\
    o = kw_obj KCodedAudio now k (coded_audio_part_kw f s c 0 0 r) (Some []) None.
Lemma coded_audio_draws now r : can_be $"coded_audio" [] now r -> exists o, r = Ok o /\ is_coded_audio now o.
Proof.
  intros (l & d & G & D & B). rewrite coded_audio_strats in G. apply Ok_eq in G. subst l. apply drawn_app in D as (d1 & d2 & -> & D1 & D).
  apply common_inv in D1 as (s & f & o & y & c & -> & Hs & Hf & Ho & Hy & Hc). next D. next D. next D. next D. last D.
  apply sample_inv in C as (fmt & -> & C). apply int_inv in C0 as (sm & -> & C0). apply int_inv in C1 as (ch & -> & C1). apply sample_inv in C2 as (rt & -> & C2). apply rate_inv in C2.
  assert (E : build $"coded_audio" now (common_drawn s f o y c ++ [($"cog_audio_format", PInt fmt); ($"samples", PInt sm); ($"channels", PInt ch); ($"sample_rate", PInt rt)]) =
    kw_coded_audio now (mkKw (Some s) (Some f) (Some o) (Some y) (Some c) (25, 1) (1, 25)) fmt sm ch 0 0 rt None ANone) by reflexivity.
  rewrite E, coded_audio_shape. eexists. split; [reflexivity|].
  exists (mkKw (Some s) (Some f) (Some o) (Some y) (Some c) (25, 1) (1, 25)), fmt, sm, ch, rt. split; [apply kw_drawn; trivial|]. repeat (split; [assumption|]). reflexivity.
Qed.

(** *** Video. *)
Definition is_video (w h now : Z) (o : gobj) : Prop :=
  exists k f l, drawn_kw (25, 1) (1, 25) k /\ sampled video_sample f /\ sampled layout_sample l /\
    o = kw_obj KVideo now k (video_part_kw f w h l (PList (map comp_dict (components_for_format f w h)))) (Some (zeros (Z.to_nat (size_for_format f w h)))) None.
Definition drawn_size (w h : Z) : Prop := (w, h) = (240, 135) \/ (w, h) = (16, 9).
Lemma video_size_nonneg f w h : sampled video_sample f -> drawn_size w h -> 0 <= size_for_format f w h.
Proof.
  intros H S. assert (F : forallb (fun f => (0 <=? size_for_format f 240 135) && (0 <=? size_for_format f 16 9)) video_sample = true) by (vm_compute; reflexivity).
  rewrite forallb_forall in F. specialize (F f (sampled_in _ _ H)). destruct S as [S|S]; apply pair_equal_spec in S as [-> ->]; lia.
Qed.
Lemma video_builds w h now d r : drawn_size w h -> drawn (video_strats_for w h) d -> build $"video" now d = r -> exists o, r = Ok o /\ is_video w h now o.
Proof.
  intros S D B. apply drawn_app in D as (d1 & d2 & -> & D1 & D). apply common_inv in D1 as (s & f & o & y & c & -> & Hs & Hf & Ho & Hy & Hc). next D. next D. next D. next D. last D.
  apply sample_inv in C as (fmt & -> & C). cbn [can_draw] in C0, C1. subst v0 v1. apply sample_inv in C2 as (lay & -> & C2).
  assert (E : build $"video" now (common_drawn s f o y c ++ [($"cog_frame_format", PInt fmt); ($"width", PInt w); ($"height", PInt h); ($"cog_frame_layout", PInt lay)]) =
    kw_video now (mkKw (Some s) (Some f) (Some o) (Some y) (Some c) (25, 1) (1, 25)) fmt w h lay ANone) by reflexivity.
  rewrite E, (video_shape _ _ _ _ _ _ (video_size_nonneg _ _ _ C S)). eexists. split; [reflexivity|].
  exists (mkKw (Some s) (Some f) (Some o) (Some y) (Some c) (25, 1) (1, 25)), fmt, lay. split; [apply kw_drawn; trivial|]. repeat (split; [assumption|]). reflexivity.
Qed.
Lemma video_draws now r : can_be $"video" [] now r -> exists o, r = Ok o /\ is_video 240 135 now o.
Proof. intros (l & d & G & D & B). rewrite (proj1 video_strats) in G. apply Ok_eq in G. subst l. apply (video_builds 240 135 now d); trivial. left. reflexivity. Qed.
Lemma video_template_draws now r : can_be $"video" (template_args $"video") now r -> exists o, r = Ok o /\ is_video 16 9 now o.
Proof. intros (l & d & G & D & B). rewrite (proj2 video_strats) in G. apply Ok_eq in G. subst l. apply (video_builds 16 9 now d); trivial. right. reflexivity. Qed.

(** *** Coded video. *)
Definition units_drawn (u : option (list Z)) : Prop := match u with None => True | Some l => 0 < zlen l <= 16 /\ Forall (fun z => 0 <= z <= 256) l end.
Definition is_coded_video (w h now : Z) (o : gobj) : Prop :=
  exists k f l key temporal u, drawn_kw (25, 1) (1, 25) k /\ sampled coded_video_sample f /\ sampled layout_sample l /\ 0 <= temporal <= 16 /\ units_drawn u /\
    o = kw_obj KCodedVideo now k (coded_video_part_kw f w h 240 135 l (Some key) (Some temporal) (coded_end u)) (Some []) None.
Lemma ints_inv a b l : Forall (can_draw (SInts (Some (a, b)))) l -> exists zs, l = map PInt zs /\ Forall (fun z => a <= z <= b) zs.
Proof.
  induction 1 as [|v l H _ (zs & -> & F)]; [exists []; split; [reflexivity|constructor]|]. apply int_inv in H as (z & -> & H). exists (z :: zs). split; [reflexivity|]. constructor; trivial.
Qed.
Lemma offsets_inv v : can_draw offsets_strat v -> exists u, arg_ints $"unit_offsets" [($"unit_offsets", v)] = Ok u /\ units_drawn u /\ (v = PNone /\ u = None \/ exists l, v = PList (map PInt l) /\ u = Some l).
Proof.
  unfold offsets_strat. cbn [can_draw]. intros [->|[F H]].
  - exists None. split; [reflexivity|]. split; [exact I|]. left. split; reflexivity.
  - destruct v; try (destruct H; fail). destruct H as [H H0]. apply ints_inv in H0 as (zs & -> & Z). exists (Some zs). split; [|split].
    + unfold arg_ints. change (dget $"unit_offsets" [($"unit_offsets", PList (map PInt zs))]) with (Some (PList (map PInt zs))). cbv beta iota.
      assert (M : map_res (fun v => match v with PInt z => Ok z | _ => Err EUnsupported end) (map PInt zs) = Ok zs).
      { clear. induction zs as [|z zs IH]; cbn [map map_res rbind]; [reflexivity|]. rewrite IH. reflexivity. }
      rewrite M. reflexivity.
    + cbn [units_drawn sorted_is_true in_bounds option_map] in *. unfold zlen in *. rewrite map_length in *. split; [lia|exact Z].
    + right. exists zs. split; reflexivity.
Qed.
Lemma coded_video_builds w h now d r : drawn (coded_video_strats_for w h) d -> build $"coded_video" now d = r -> exists o, r = Ok o /\ is_coded_video w h now o.
Proof.
  intros D B. apply drawn_app in D as (d1 & d2 & -> & D1 & D). apply common_inv in D1 as (s & f & o & y & c & -> & Hs & Hf & Ho & Hy & Hc).
  next D. next D. next D. next D. next D. next D. next D. next D. next D. last D.
  apply sample_inv in C as (fmt & -> & C). cbn [can_draw] in C0, C1, C3, C4. subst v0 v1 v3 v4. apply sample_inv in C2 as (lay & -> & C2). destruct v5 as [|key| | | | | | | | |]; try (destruct C5; fail).
  apply int_inv in C6 as (tm & -> & C6). apply offsets_inv in C7 as (u & A & C7 & _).
  assert (E : build $"coded_video" now (common_drawn s f o y c ++ [($"cog_frame_format", PInt fmt); ($"coded_width", PInt 240); ($"coded_height", PInt 135); ($"cog_frame_layout", PInt lay);
      ($"origin_width", PInt w); ($"origin_height", PInt h); ($"is_key_frame", PBool key); ($"temporal_offset", PInt tm); ($"unit_offsets", v7)]) =
    rbind (arg_ints $"unit_offsets" [($"unit_offsets", v7)]) (fun u =>
      kw_coded_video now (mkKw (Some s) (Some f) (Some o) (Some y) (Some c) (25, 1) (1, 25)) fmt w h (Some 240) (Some 135) (Some key) (Some tm) None lay u ANone)) by reflexivity.
  rewrite E, A. cbn [rbind]. rewrite coded_video_shape. eexists. split; [reflexivity|].
  exists (mkKw (Some s) (Some f) (Some o) (Some y) (Some c) (25, 1) (1, 25)), fmt, lay, key, tm, u. split; [apply kw_drawn; trivial|]. repeat (split; [assumption|]). reflexivity.
Qed.
Lemma coded_video_draws now r : can_be $"coded_video" [] now r -> exists o, r = Ok o /\ is_coded_video 240 135 now o.
Proof. intros (l & d & G & D & B). rewrite (proj1 coded_video_strats) in G. apply Ok_eq in G. subst l. exact (coded_video_builds 240 135 now d r D B). Qed.
Lemma coded_video_template_draws now r : can_be $"coded_video" (template_args $"coded_video") now r -> exists o, r = Ok o /\ is_coded_video 16 9 now o.
Proof. intros (l & d & G & D & B). rewrite (proj2 coded_video_strats) in G. apply Ok_eq in G. subst l. exact (coded_video_builds 16 9 now d r D B). Qed.

(** *** Events. *)
Definition value_drawn (v : pv) : Prop := can_draw event_value v.
Definition entry_drawn (x : pv * pv * pv) : Prop := let '(path, pre, post) := x in (exists s, path = PStr s /\ matches topic_regex s = true) /\ value_drawn pre /\ value_drawn post.
Definition is_event (now : Z) (o : gobj) : Prop :=
  exists k kind topic xs, drawn_kw (25, 1) (1, 25) k /\ matches type_regex kind = true /\ matches topic_regex topic = true /\ Forall entry_drawn xs /\
    o = kw_obj KEvent now k (event_part kind topic (map entry_of xs)) None None.
Lemma value_not_none v : value_drawn v -> v <> PNone.
Proof. intros H ->. unfold value_drawn, event_value in H. cbn [can_draw] in H. destruct H as [[]|[[]|[(n & d & _ & E)|[]]]]. discriminate E. Qed.
Lemma dict3 a b c s t u (d : dict) : can_draw (SDict [(a, s); (b, t); (c, u)]) (PDict d) -> exists x y z, d = [(a, x); (b, y); (c, z)] /\ can_draw s x /\ can_draw t y /\ can_draw u z.
Proof.
  intros H. destruct d as [|[a' x] [|[b' y] [|[c' z] [|? ?]]]]; try (destruct H; fail); try (destruct H as (_ & _ & []); fail); try (destruct H as (_ & _ & _ & _ & []); fail);
  try (destruct H as (_ & _ & _ & _ & _ & _ & []); fail).
  destruct H as (<- & H1 & <- & H2 & <- & H3 & _). exists x, y, z. auto.
Qed.
Lemma entries_inv l : Forall (can_draw entry_strat) l -> exists xs, map_res three l = Ok xs /\ Forall entry_drawn xs.
Proof.
  induction 1 as [|v l H _ (xs & M & F)]; [exists []; split; [reflexivity|constructor]|]. destruct v; try (destruct H; fail). apply dict3 in H as (x & y & z & -> & H1 & H2 & H3).
  exists ((x, y, z) :: xs). split; [cbn [map_res]; rewrite M; reflexivity|]. constructor; [|exact F]. split; [|split; assumption]. destruct x; try (destruct H1; fail). exists s. split; [reflexivity|exact H1].
Qed.
Lemma event_draws now r : can_be $"event" [] now r -> exists o, r = Ok o /\ is_event now o.
Proof.
  intros (l & d & G & D & B). rewrite event_strats in G. apply Ok_eq in G. subst l. apply drawn_app in D as (d1 & d2 & -> & D1 & D).
  apply common_inv in D1 as (s & f & o & y & c & -> & Hs & Hf & Ho & Hy & Hc). next D. next D. next D. next D. next D. last D. cbn [can_draw] in C, C0. subst v v0.
  destruct v1 as [| | | |kind| | | | | |]; try (destruct C1; fail). destruct v2 as [| | | |topic| | | | | |]; try (destruct C2; fail). destruct v3 as [| | | | | | | | |l|]; try (destruct C3; fail).
  destruct C3 as [_ C3]. apply entries_inv in C3 as (xs & M & F).
  assert (E : build $"event" now (common_drawn s f o y c ++ [($"rate", PFrac 25 1); ($"duration", PFrac 1 25); ($"event_type", PStr kind); ($"topic", PStr topic); ($"event_data", PList l)]) =
    rbind (kw_event now (mkKw (Some s) (Some f) (Some o) (Some y) (Some c) (25, 1) (1, 25)) kind topic ANone) (append_all l)) by reflexivity.
  rewrite E, event_shape. cbn [rbind]. rewrite append_all_shape, M. cbn [rbind app]. eexists. split; [reflexivity|].
  exists (mkKw (Some s) (Some f) (Some o) (Some y) (Some c) (25, 1) (1, 25)), kind, topic, xs. split; [apply kw_drawn; trivial|]. repeat (split; [assumption|]). reflexivity.
Qed.

(** *** Empty grains. *)
Definition is_empty (now : Z) (o : gobj) : Prop := exists k, drawn_kw (0, 1) (0, 1) k /\ o = empty_obj now k.
Lemma empty_draws now r : can_be $"empty" [] now r -> exists o, r = Ok o /\ is_empty now o.
Proof.
  intros (l & d & G & D & B). rewrite empty_strats in G. apply Ok_eq in G. subst l. apply common_inv in D as (s & f & o & y & c & -> & Hs & Hf & Ho & Hy & Hc).
  assert (E : build $"empty" now (common_drawn s f o y c) = kw_factory now (mkKw (Some s) (Some f) (Some o) (Some y) (Some c) (0, 1) (0, 1)) ANone) by reflexivity.
  rewrite E, (empty_shape now (mkKw (Some s) (Some f) (Some o) (Some y) (Some c) (0, 1) (0, 1)) s f eq_refl eq_refl) in B. subst r. eexists. split; [reflexivity|]. exists (mkKw (Some s) (Some f) (Some o) (Some y) (Some c) (0, 1) (0, 1)). split; [apply kw_drawn; trivial|reflexivity].
Qed.

(** ** All that the documentation says of them. *)
Lemma has_eq o n v (P : pv -> Prop) : getattr o n = Ok v -> P v -> has o n P. Proof. unfold has. eauto. Qed.
Lemma int_has o n z (P : Z -> Prop) : getattr o n = Ok (PInt z) -> P z -> has o n (int_where P). Proof. unfold has, int_where. eauto 6. Qed.
Lemma frac_lowest_25 : Z.gcd 25 1 = 1 /\ Z.gcd 1 25 = 1. Proof. split; reflexivity. Qed.
Lemma common_has t type r d now k o : common_are k now type o -> drawn_kw r d k -> 0 < snd r -> Z.gcd (fst r) (snd r) = 1 -> 0 < snd d -> Z.gcd (fst d) (snd d) = 1 ->
  (if zlist_eqb t $"empty" then [($"rate", eq (PFrac 0 1)); ($"duration", eq (PFrac 0 1))] else [($"rate", eq (PFrac 25 1)); ($"duration", eq (PFrac 1 25))]) =
    [($"rate", eq (PFrac (fst r) (snd r))); ($"duration", eq (PFrac (fst d) (snd d)))] ->
  Forall (fun np => has o (fst np) (snd np)) (common_range t).
Proof.
  intros [Ct Cs Cf Cc Co Cy Cr Cd] [(s & Es & Hs) (f & Ef & Hf) (og & Eo & Ho) (y & Ey & Hy) (c & Ec & Hc) Er Ed] R1 R2 D1 D2 T. unfold common_range. rewrite T. destruct r as [rn rd], d as [dn dd]. cbn [fst snd] in *.
  rewrite Eo, Ec, Ey in *. cbn [or_else] in Cc, Co, Cy.
  repeat (apply Forall_cons; [cbn [fst snd]|]); [| | | | | | |constructor].
  - eapply has_eq; [exact (proj1 (Cs s Es))|exists s; split; [reflexivity|exact Hs]].
  - eapply has_eq; [exact (Cf f Ef)|exists f; split; [reflexivity|exact Hf]].
  - eapply has_eq; [exact Co|exists og; split; [reflexivity|exact Ho]].
  - eapply has_eq; [exact Cy|exists y; split; [reflexivity|exact Hy]].
  - eapply has_eq; [exact Cc|exists c; split; [reflexivity|exact Hc]].
  - eapply has_eq; [exact (Cr rn rd Er R1 R2)|reflexivity].
  - eapply has_eq; [exact (Cd dn dd Ed D1 D2)|reflexivity].
Qed.

Lemma sampled_all (P : Z -> bool) l z : forallb P l = true -> sampled l z -> P z = true.
Proof. intros F H. rewrite forallb_forall in F. exact (F z (sampled_in _ _ H)). Qed.
Lemma audio_format_drawn f : sampled audio_sample f -> member audio_formats f = true /\ compressed f = false /\ f <> 0xffffffff.
Proof.
  intros H. assert (F : forallb (fun f => member audio_formats f && negb (compressed f) && negb (f =? 0xffffffff)) audio_sample = true) by (vm_compute; reflexivity).
  pose proof (sampled_all _ _ _ F H) as E. cbv beta in E. apply andb_true_iff in E as [E E3]. apply andb_true_iff in E as [E1 E2]. apply negb_true_iff in E2, E3. apply Z.eqb_neq in E3. auto.
Qed.
Lemma coded_audio_format_drawn f : sampled coded_audio_sample f -> member audio_formats f = true /\ compressed f = true /\ f <> 0xffffffff.
Proof.
  intros H. assert (F : forallb (fun f => member audio_formats f && compressed f && negb (f =? 0xffffffff)) coded_audio_sample = true) by (vm_compute; reflexivity).
  pose proof (sampled_all _ _ _ F H) as E. cbv beta in E. apply andb_true_iff in E as [E E3]. apply andb_true_iff in E as [E1 E2]. apply negb_true_iff in E3. apply Z.eqb_neq in E3. auto.
Qed.
Lemma video_format_drawn f : sampled video_sample f -> member frame_formats f = true /\ compressed f = false.
Proof.
  intros H. assert (F : forallb (fun f => member frame_formats f && negb (compressed f)) video_sample = true) by (vm_compute; reflexivity).
  pose proof (sampled_all _ _ _ F H) as E. cbv beta in E. apply andb_true_iff in E as [E1 E2]. apply negb_true_iff in E2. auto.
Qed.
Lemma coded_video_format_drawn f : sampled coded_video_sample f -> member frame_formats f = true /\ compressed f = true /\ f <> 0xffffffff.
Proof.
  intros H. assert (F : forallb (fun f => member frame_formats f && compressed f && negb (f =? 0xffffffff)) coded_video_sample = true) by (vm_compute; reflexivity).
  pose proof (sampled_all _ _ _ F H) as E. cbv beta in E. apply andb_true_iff in E as [E E3]. apply andb_true_iff in E as [E1 E2]. apply negb_true_iff in E3. apply Z.eqb_neq in E3. auto.
Qed.
Lemma layout_drawn l : sampled layout_sample l -> member frame_layouts l = true /\ l <> 0xfffffffe.
Proof.
  intros H. assert (F : forallb (fun f => member frame_layouts f && negb (f =? 0xfffffffe)) layout_sample = true) by (vm_compute; reflexivity).
  pose proof (sampled_all _ _ _ F H) as E. cbv beta in E. apply andb_true_iff in E as [E1 E2]. apply negb_true_iff in E2. apply Z.eqb_neq in E2. auto.
Qed.
Lemma zeros_zero n : Forall (fun x => x = 0) (zeros n).
Proof. unfold zeros. apply Forall_forall. intros x H. exact (repeat_spec _ _ _ H). Qed.
Lemma zlen_zeros n : zlen (zeros n) = Z.of_nat n.
Proof. unfold zlen, zeros. rewrite repeat_length. reflexivity. Qed.
(** The formats. *)
Lemma audio_format_attr now k f s c r d w : member audio_formats f = true ->
  getattr (kw_obj KAudio now k (audio_part_kw f s c r) d w) $"cog_audio_format" = Ok (PInt f) /\ getattr (kw_obj KAudio now k (audio_part_kw f s c r) d w) $"format" = Ok (PInt f).
Proof. intros M. destruct k as [? ? ? ? ? [? ?] [? ?]]. rewrite <- (member_ok _ _ M). split; reflexivity. Qed.
Lemma coded_audio_format_attr now k f s c p m r d w : member audio_formats f = true ->
  getattr (kw_obj KCodedAudio now k (coded_audio_part_kw f s c p m r) d w) $"cog_audio_format" = Ok (PInt f) /\
  getattr (kw_obj KCodedAudio now k (coded_audio_part_kw f s c p m r) d w) $"format" = Ok (PInt f).
Proof. intros M. destruct k as [? ? ? ? ? [? ?] [? ?]]. rewrite <- (member_ok _ _ M). split; reflexivity. Qed.
Lemma video_format_attr now k f x y l cs d w : member frame_formats f = true -> getattr (kw_obj KVideo now k (video_part_kw f x y l cs) d w) $"cog_frame_format" = Ok (PInt f).
Proof. intros M. destruct k as [? ? ? ? ? [? ?] [? ?]]. rewrite <- (member_ok _ _ M). reflexivity. Qed.
Lemma video_layout_attr now k f x y l cs d w : member frame_layouts l = true -> getattr (kw_obj KVideo now k (video_part_kw f x y l cs) d w) $"cog_frame_layout" = Ok (PInt l).
Proof. intros M. destruct k as [? ? ? ? ? [? ?] [? ?]]. rewrite <- (member_ok _ _ M). reflexivity. Qed.
Lemma coded_video_format_attr now k f x y cw ch l key tm m d w : member frame_formats f = true ->
  getattr (kw_obj KCodedVideo now k (coded_video_part_kw f x y cw ch l key tm m) d w) $"cog_frame_format" = Ok (PInt f).
Proof. intros M. destruct k as [? ? ? ? ? [? ?] [? ?]]. rewrite <- (member_ok _ _ M). destruct key, tm; reflexivity. Qed.
Lemma coded_video_layout_attr now k f x y cw ch l key tm m d w : member frame_layouts l = true ->
  getattr (kw_obj KCodedVideo now k (coded_video_part_kw f x y cw ch l key tm m) d w) $"cog_frame_layout" = Ok (PInt l).
Proof. intros M. destruct k as [? ? ? ? ? [? ?] [? ?]]. rewrite <- (member_ok _ _ M). destruct key, tm; reflexivity. Qed.
Lemma audio_expected now k f s c r d w : member audio_formats f = true -> expected_length (kw_obj KAudio now k (audio_part_kw f s c r) d w) = Ok (size_for_audio_format f c s).
Proof.
  intros M. unfold expected_length, attr. cbn [kw_obj o_class]. change (mkO KAudio _ d w) with (kw_obj KAudio now k (audio_part_kw f s c r) d w). rewrite (proj2 (audio_format_attr now k f s c r d w M)).
  cbn [rbind to_int]. destruct k as [? ? ? ? ? [? ?] [? ?]]. reflexivity.
Qed.
Lemma audio_documented now o : is_audio now o -> as_documented $"audio" o.
Proof.
  intros (k & f & s & c & r & K & F & S & C & R & -> & N). split; [reflexivity|]. split; [|split; [|exact I]].
  - exists (zeros (Z.to_nat (size_for_audio_format f c s))). split; [destruct k as [? ? ? ? ? [? ?] [? ?]]; reflexivity|]. split; [apply zeros_zero|]. rewrite zlen_zeros, Z2Nat.id by exact N.
    apply audio_expected. exact (proj1 (audio_format_drawn f F)).
  - apply Forall_app. split.
    + apply (common_has _ _ (25, 1) (1, 25) now k _ (kw_common KAudio now k _ _ _ ltac:(discriminate)) K); cbn; trivial; lia.
    + change (own_range $"audio") with (audio_range false). destruct k as [? ? ? ? ? [? ?] [? ?]]. repeat (apply Forall_cons; [cbn [fst snd]|]); [| | | |constructor].
      * eapply int_has; [apply audio_format_attr; exact (proj1 (audio_format_drawn f F))|exact (audio_format_drawn f F)].
      * eapply int_has; [reflexivity|exact S].
      * eapply int_has; [reflexivity|exact C].
      * eapply int_has; [reflexivity|exact R].
Qed.
Lemma coded_audio_documented now o : is_coded_audio now o -> as_documented $"coded_audio" o.
Proof.
  intros (k & f & s & c & r & K & F & S & C & R & ->). split; [reflexivity|]. split; [|split; [|exact I]].
  - exists []. split; [destruct k as [? ? ? ? ? [? ?] [? ?]]; reflexivity|]. split; [constructor|]. destruct k as [? ? ? ? ? [? ?] [? ?]]; reflexivity.
  - apply Forall_app. split.
    + apply (common_has _ _ (25, 1) (1, 25) now k _ (kw_common KCodedAudio now k _ _ _ ltac:(discriminate)) K); cbn; trivial; lia.
    + change (own_range $"coded_audio") with (audio_range true ++ [($"priming", eq (PInt 0)); ($"remainder", eq (PInt 0))]).
      unfold audio_range. cbn [app]. destruct k as [? ? ? ? ? [? ?] [? ?]]. repeat (apply Forall_cons; [cbn [fst snd]|]); [| | | | | |constructor].
      * eapply int_has; [apply coded_audio_format_attr; exact (proj1 (coded_audio_format_drawn f F))|exact (coded_audio_format_drawn f F)].
      * eapply int_has; [reflexivity|exact S].
      * eapply int_has; [reflexivity|exact C].
      * eapply int_has; [reflexivity|exact R].
      * eapply has_eq; reflexivity.
      * eapply has_eq; reflexivity.
Qed.
Lemma video_length f w h : sampled video_sample f -> drawn_size w h ->
  rbind (map_res part_end (map comp_dict (components_for_format f w h))) (fun es => Ok (furthest es)) = Ok (size_for_format f w h).
Proof.
  intros H S. assert (F : forallb (fun f => forallb (fun wh => match rbind (map_res part_end (map comp_dict (components_for_format f (fst wh) (snd wh)))) (fun es => Ok (furthest es)) with
      Ok z => z =? size_for_format f (fst wh) (snd wh) | Err _ => false end) [(240, 135); (16, 9)]) video_sample = true) by (vm_compute; reflexivity).
  pose proof (sampled_all _ _ _ F H) as E. cbn [forallb fst snd] in E. apply andb_true_iff in E as [E1 E2]. apply andb_true_iff in E2 as [E2 _].
  destruct S as [S|S]; apply pair_equal_spec in S as [-> ->].
  - destruct (rbind (map_res part_end (map comp_dict (components_for_format f 240 135))) (fun es => Ok (furthest es))) as [z|]; [|discriminate E1]. apply Z.eqb_eq in E1. congruence.
  - destruct (rbind (map_res part_end (map comp_dict (components_for_format f 16 9))) (fun es => Ok (furthest es))) as [z|]; [|discriminate E2]. apply Z.eqb_eq in E2. congruence.
Qed.
Lemma video_expected now k f w h l d : expected_length (kw_obj KVideo now k (video_part_kw f w h l (PList (map comp_dict (components_for_format f w h)))) d None) =
  rbind (map_res part_end (map comp_dict (components_for_format f w h))) (fun es => Ok (furthest es)).
Proof. destruct k as [? ? ? ? ? [? ?] [? ?]]. reflexivity. Qed.
Lemma video_documented now o : is_video 240 135 now o -> as_documented $"video" o.
Proof.
  intros (k & f & l & K & F & L & ->). assert (DS : drawn_size 240 135) by (left; reflexivity). split; [reflexivity|]. split; [|split; [|exact I]].
  - exists (zeros (Z.to_nat (size_for_format f 240 135))). split; [destruct k as [? ? ? ? ? [? ?] [? ?]]; reflexivity|]. split; [apply zeros_zero|].
    rewrite zlen_zeros, Z2Nat.id by exact (video_size_nonneg _ _ _ F DS). rewrite video_expected. exact (video_length f 240 135 F DS).
  - apply Forall_app. split.
    + apply (common_has _ _ (25, 1) (1, 25) now k _ (kw_common KVideo now k _ _ _ ltac:(discriminate)) K); cbn; trivial; lia.
    + change (own_range $"video") with [($"cog_frame_format", int_where (fun f => member frame_formats f = true /\ compressed f = false)); ($"width", eq (PInt 240)); ($"height", eq (PInt 135)); layout_range].
      unfold layout_range. destruct (layout_drawn l L) as [L1 L2]. repeat (apply Forall_cons; [cbn [fst snd]|]); [| | | |constructor].
      * eapply int_has; [apply video_format_attr; exact (proj1 (video_format_drawn f F))|exact (video_format_drawn f F)].
      * eapply has_eq; [destruct k as [? ? ? ? ? [? ?] [? ?]]; reflexivity|reflexivity].
      * eapply has_eq; [destruct k as [? ? ? ? ? [? ?] [? ?]]; reflexivity|reflexivity].
      * eapply int_has; [apply video_layout_attr; exact L1|split; assumption].
Qed.
Lemma offsets_of now k f x y cw ch l key tm u d w :
  offsets (kw_obj KCodedVideo now k (coded_video_part_kw f x y cw ch l (Some key) (Some tm) (coded_end u)) d w) = Ok (map PInt (or_else u [])).
Proof. destruct k as [? ? ? ? ? [? ?] [? ?]], u; reflexivity. Qed.
Lemma coded_video_documented now o : is_coded_video 240 135 now o -> as_documented $"coded_video" o.
Proof.
  intros (k & f & l & key & tm & u & K & F & L & T & U & ->). destruct (layout_drawn l L) as [L1 L2]. split; [reflexivity|]. split; [|split].
  - exists []. split; [destruct k as [? ? ? ? ? [? ?] [? ?]]; reflexivity|]. split; [constructor|]. destruct k as [? ? ? ? ? [? ?] [? ?]], u; reflexivity.
  - apply Forall_app. split.
    + apply (common_has _ _ (25, 1) (1, 25) now k _ (kw_common KCodedVideo now k _ _ _ ltac:(discriminate)) K); cbn; trivial; lia.
    + change (own_range $"coded_video") with
        [($"cog_frame_format", int_where (fun f => member frame_formats f = true /\ compressed f = true /\ f <> 0xffffffff)); ($"origin_width", eq (PInt 240)); ($"origin_height", eq (PInt 135));
         ($"coded_width", eq (PInt 240)); ($"coded_height", eq (PInt 135)); layout_range; ($"is_key_frame", fun v => exists b, v = PBool b);
         ($"temporal_offset", int_where (fun z => 0 <= z <= 16))].
      unfold layout_range. repeat (apply Forall_cons; [cbn [fst snd]|]); [| | | | | | | |constructor].
      * eapply int_has; [apply coded_video_format_attr; exact (proj1 (coded_video_format_drawn f F))|exact (coded_video_format_drawn f F)].
      * eapply has_eq; [destruct k as [? ? ? ? ? [? ?] [? ?]]; reflexivity|reflexivity].
      * eapply has_eq; [destruct k as [? ? ? ? ? [? ?] [? ?]]; reflexivity|reflexivity].
      * eapply has_eq; [destruct k as [? ? ? ? ? [? ?] [? ?]]; reflexivity|reflexivity].
      * eapply has_eq; [destruct k as [? ? ? ? ? [? ?] [? ?]]; reflexivity|reflexivity].
      * eapply int_has; [apply coded_video_layout_attr; exact L1|split; assumption].
      * eapply has_eq; [destruct k as [? ? ? ? ? [? ?] [? ?]]; reflexivity|exists key; reflexivity].
      * eapply int_has; [destruct k as [? ? ? ? ? [? ?] [? ?]]; reflexivity|exact T].
  - unfold lists_range. exists (or_else u []). split; [apply offsets_of|]. destruct u as [u|]; cbn [or_else units_drawn] in *; [split; [lia|apply U]|]. split; [unfold zlen; cbn; lia|constructor].
Qed.
Lemma entry_of_drawn x : entry_drawn x -> exists d path pre post, entry_of x = PDict d /\ d = [($"path", PStr path); ($"pre", pre); ($"post", post)] /\ pre <> PNone /\ post <> PNone /\
  (matches topic_regex path = true /\ value_drawn pre /\ value_drawn post).
Proof.
  destruct x as [[path pre] post]. intros ((s & -> & S) & P & Q). exists [($"path", PStr s); ($"pre", pre); ($"post", post)], s, pre, post. pose proof (value_not_none _ P) as P1. pose proof (value_not_none _ Q) as Q1.
  split; [destruct pre; [destruct (P1 eq_refl)|..]; (destruct post; [destruct (Q1 eq_refl)|..]); reflexivity|]. repeat split; assumption.
Qed.
Lemma event_documented now o : is_event now o -> as_documented $"event" o.
Proof.
  intros (k & kind & topic & xs & K & F1 & F2 & F & ->). split; [reflexivity|]. split; [exact I|]. split.
  - apply Forall_app. split; [|constructor]. apply (common_has _ _ (25, 1) (1, 25) now k _ (kw_common KEvent now k _ _ _ ltac:(discriminate)) K); cbn; trivial; lia.
  - exists (map entry_of xs). split; [destruct k as [? ? ? ? ? [? ?] [? ?]]; reflexivity|]. apply Forall_map. apply (Forall_impl _ (fun x H => match entry_of_drawn x H with
      ex_intro _ d (ex_intro _ a (ex_intro _ b (ex_intro _ c (conj A (conj B (conj C (conj D _))))))) => ex_intro _ d (ex_intro _ a (ex_intro _ b (ex_intro _ c (conj A (conj B (conj C D)))))) end) F).
Qed.
Lemma empty_common now k s f : k_src k = Some s -> k_flow k = Some f -> common_are k now $"empty" (empty_obj now k).
Proof. intros S F. exact (proj1 (proj2 (empty_kw now k ANone _ (empty_shape now k s f S F)))). Qed.
Lemma empty_documented now o : is_empty now o -> as_documented $"empty" o.
Proof.
  intros (k & K & ->). split; [reflexivity|]. split; [reflexivity|]. split; [|exact I]. apply Forall_app. split; [|constructor].
  destruct (dk_src _ _ _ K) as (s & S & _). destruct (dk_flow _ _ _ K) as (f & F & _). apply (common_has _ _ (0, 1) (0, 1) now k _ (empty_common now k s f S F) K); cbn; trivial; lia.
Qed.
Theorem drawn_documented t now r : In t grain_types -> can_be t [] now r -> exists o, r = Ok o /\ as_documented t o.
Proof.
  intros T B. destruct (dest6 t T) as [->|[->|[->|[->|[->| ->]]]]].
  - destruct (empty_draws now r B) as (o & -> & H). exists o. split; [reflexivity|exact (empty_documented now o H)].
  - destruct (audio_draws now r B) as (o & -> & H). exists o. split; [reflexivity|exact (audio_documented now o H)].
  - destruct (coded_audio_draws now r B) as (o & -> & H). exists o. split; [reflexivity|exact (coded_audio_documented now o H)].
  - destruct (event_draws now r B) as (o & -> & H). exists o. split; [reflexivity|exact (event_documented now o H)].
  - destruct (video_draws now r B) as (o & -> & H). exists o. split; [reflexivity|exact (video_documented now o H)].
  - destruct (coded_video_draws now r B) as (o & -> & H). exists o. split; [reflexivity|exact (coded_video_documented now o H)].
Qed.
