From Coq Require Import String Lia ZifyBool ZifyNat.
From Verif Require Import Base BaseProofs GsfPrim GsfPrimProofs GsfDecode GsfEncode GsfSpec GsfFileSpec PyValue PyValueProofs Json JsonProofs CogEnums VideoLayout GrainObj Event EventSpec EventMain
  BuildSpec BuildProofs BuildMain BuildKw GrainSet GrainSetSpec GrainCopy GrainCopySpec GrainCopyProofs GrainCopyMade GrainCopyApart Compare CompareSpec GrainGsf GrainGsfSpec GrainGsfRead GrainGsfFileSpec
  SavedSpec PyValue GrainObj Tools ToolsMain Strategies StrategySpec StrategyProofs StrategyArgs StrategyDraw StrategyData.
Local Open Scope list_scope.

(** ** What the encoder reads. *)
Lemma uuid_written u : uuid_drawn u -> is_uuid u = true /\ uuid_ok (uuid_bytes u).
Proof.
  unfold uuid_drawn. change (2 ^ 128) with 340282366920938463463374607431768211456. intros H. split; [unfold is_uuid; lia|]. unfold uuid_bytes, uuid_ok. split.
  - unfold zlen. rewrite rev_length. change (zlen (enc_uint 16 u) = 16). rewrite enc_uint_len. reflexivity.
  - apply Forall_rev. apply enc_uint_ok.
Qed.
Definition grain_of (s f og y : Z) (r d : rat) (b : gbody) (n : Z) (x : option bytes) : grain := mkGrain (uuid_bytes s) (uuid_bytes f) og y r d [] b n x.
Lemma drawn_reads r d type now k o b n x : common_are k now type o -> drawn_kw r d k -> rat_ok r -> rat_fits r -> rat_ok d -> rat_fits d -> labels o = Ok [] ->
  read_body o = Ok b -> getattr o $"length" = Ok (PInt n) -> get_data o = Ok x -> gbody_ok b -> n = zlen (opt_bytes x) -> bytes_ok (opt_bytes x) ->
  exists g, read_grain o = Ok g /\ grain_ok g.
Proof.
  intros [Ct Cs Cf Cc Co Cy Cr Cd] [(s & Es & Hs) (f & Ef & Hf) (og & Eo & Ho) (y & Ey & Hy) (c & Ec & Hc) Er Ed] R1 R2 D1 D2 L B N X GB LN BX.
  destruct r as [rn rd], d as [dn dd]. rewrite Eo, Ec, Ey in *. cbn [or_else] in Cc, Co, Cy. destruct (uuid_written s Hs) as [S1 S2]. destruct (uuid_written f Hf) as [F1 F2].
  exists (grain_of s f og y (rn, rd) (dn, dd) b n x). split.
  - unfold read_grain, attr. rewrite (proj1 (Cs s Es)), (Cf f Ef), Co, Cy, (Cr rn rd Er (proj1 R1) (proj2 R1)), (Cd dn dd Ed (proj1 D1) (proj2 D1)), L, B, N, X. cbn [rbind as_id as_time as_frac map_res to_int].
    rewrite S1, F1. reflexivity.
  - unfold grain_ok, grain_of. cbn [g_src g_flow g_origin g_sync g_rate g_dur g_tils g_body g_len g_data]. split; [exact S2|]. split; [exact F2|]. unfold time_drawn in *. change (2 ^ 48) with 281474976710656 in *.
    split; [exact Ho|]. split; [exact Hy|]. split; [exact R1|]. split; [exact R2|]. split; [exact D1|]. split; [exact D2|]. split; [constructor|]. split; [unfold u16, zlen; cbn; lia|]. auto.
Qed.
Lemma rats : rat_ok (25, 1) /\ rat_fits (25, 1) /\ rat_ok (1, 25) /\ rat_fits (1, 25) /\ rat_ok (0, 1) /\ rat_fits (0, 1).
Proof. unfold rat_ok, rat_fits. cbn [fst snd]. repeat split; lia || reflexivity. Qed.
Lemma drawn_reads_25 c now k part d w b n x : c <> KGrain -> drawn_kw (25, 1) (1, 25) k -> labels (kw_obj c now k part d w) = Ok [] ->
  read_body (kw_obj c now k part d w) = Ok b -> getattr (kw_obj c now k part d w) $"length" = Ok (PInt n) -> get_data (kw_obj c now k part d w) = Ok x -> gbody_ok b -> n = zlen (opt_bytes x) -> bytes_ok (opt_bytes x) ->
  exists g, read_grain (kw_obj c now k part d w) = Ok g /\ grain_ok g.
Proof. intros C K. destruct rats as (R1 & R2 & R3 & R4 & _). exact (drawn_reads (25, 1) (1, 25) _ now k _ b n x (kw_common c now k part d w C) K R1 R2 R3 R4). Qed.
Lemma no_labels c now k part d w : labels (kw_obj c now k part d w) = Ok [].
Proof. destruct k as [? ? ? ? ? [? ?] [? ?]]. destruct c; reflexivity. Qed.
Lemma body_of c now k part d w : c <> KGrain -> read_body (kw_obj c now k part d w) =
  match c with KVideo => rbind (read_video (kw_obj c now k part d w)) (fun v => Ok (BVideo v)) | KCodedVideo => rbind (read_coded (kw_obj c now k part d w)) (fun v => Ok (BCoded v))
  | KAudio => rbind (read_audio (kw_obj c now k part d w)) (fun v => Ok (BAudio v)) | KCodedAudio => rbind (read_coded_audio (kw_obj c now k part d w)) (fun v => Ok (BCAudio v))
  | KEvent => Ok BEvent | KGrain => Ok BEmpty end.
Proof.
  intros C. unfold read_body. rewrite (kw_own c now k part d w C). cbn [rbind kw_obj o_class]. destruct c; try reflexivity.
Qed.

(** *** Audio. *)
Lemma audio_writable now b o : is_audio_with now b o -> exists g, writable o g.
Proof.
  intros (k & f & s & c & r & K & F & S & C & R & -> & L & B & P). assert (M : member audio_formats f = true) by apply (audio_format_drawn f F).
  assert (RB : read_body (kw_obj KAudio now k (audio_part_kw f s c r) (Some b) None) = Ok (BAudio (mkA f c s r))).
  { rewrite body_of by discriminate. unfold read_audio, attr. rewrite (proj1 (audio_format_attr now k f s c r (Some b) None M)). cbn [rbind to_int]. destruct k as [? ? ? ? ? [? ?] [? ?]]. reflexivity. }
  destruct (drawn_reads_25 KAudio now k (audio_part_kw f s c r) (Some b) None (BAudio (mkA f c s r)) (zlen b) (Some b)) as (g & G1 & G2); try apply no_labels; trivial; try discriminate.
  - split; [exact M|]. cbn [a_channels a_samples a_rate]. unfold u16, u32. split; [lia|]. split; [lia|]. destruct R; subst r; lia.
  - exists g. split; [apply kw_own; discriminate|]. split; [exact G1|]. split; [exact G2|]. intros X. discriminate X.
Qed.
(** *** Coded audio. *)
Lemma coded_audio_writable now o : is_coded_audio now o -> exists g, writable o g.
Proof.
  intros (k & f & s & c & r & K & F & S & C & R & ->). assert (M : member audio_formats f = true) by apply (coded_audio_format_drawn f F).
  assert (RB : read_body (kw_obj KCodedAudio now k (coded_audio_part_kw f s c 0 0 r) (Some []) None) = Ok (BCAudio (mkCA f c s 0 0 r))).
  { rewrite body_of by discriminate. unfold read_coded_audio, attr. rewrite (proj1 (coded_audio_format_attr now k f s c 0 0 r (Some []) None M)). cbn [rbind to_int]. destruct k as [? ? ? ? ? [? ?] [? ?]]. reflexivity. }
  destruct (drawn_reads_25 KCodedAudio now k (coded_audio_part_kw f s c 0 0 r) (Some []) None (BCAudio (mkCA f c s 0 0 r)) 0 (Some [])) as (g & G1 & G2); try apply no_labels; trivial; try discriminate.
  - split; [exact M|]. unfold u16, u32; cbn [ca_format ca_channels ca_samples GsfDecode.ca_rate ca_priming ca_remainder]. split; [lia|]. split; [lia|]. split; [lia|]. split; [lia|]. destruct R; subst r; lia.
  - constructor.
  - exists g. split; [apply kw_own; discriminate|]. split; [exact G1|]. split; [exact G2|]. intros X. discriminate X.
Qed.
(** *** Video. *)
Definition read_comps (f : Z) : res (list comp) := map_res read_comp (map comp_dict (components_for_format f 16 9)).
Definition comp_fits (c : comp) : bool := between 0 4294967295 (co_width c) && between 0 4294967295 (co_height c) && between 0 4294967295 (co_stride c) && between 0 4294967295 (co_length c).
Lemma comps_read f : sampled video_sample f -> exists cs, read_comps f = Ok cs /\ Forall comp_ok cs /\ u16 (zlen cs).
Proof.
  intros H. assert (F : forallb (fun f => match read_comps f with Ok cs => forallb comp_fits cs && (zlen cs <? 65536) | Err _ => false end) video_sample = true) by (vm_compute; reflexivity).
  pose proof (sampled_all _ _ _ F H) as E. cbv beta in E. destruct (read_comps f) as [cs|]; [|discriminate E]. exists cs. apply andb_true_iff in E as [E1 E2]. split; [reflexivity|].
  split; [|unfold u16; pose proof (zlen_nonneg cs); lia]. rewrite forallb_forall in E1. apply Forall_forall. intros c I. specialize (E1 c I). unfold comp_fits, between in E1. unfold comp_ok, u32. lia.
Qed.
Lemma video_writable now b o : is_video_with now b o -> exists g, writable o g.
Proof.
  intros (k & f & l & K & F & L & -> & LB & B). assert (M : member frame_formats f = true) by apply (video_format_drawn f F). assert (ML : member frame_layouts l = true) by apply (layout_drawn l L).
  destruct (comps_read f F) as (cs & C1 & C2 & C3). set (part := video_part_kw f 16 9 l (PList (map comp_dict (components_for_format f 16 9)))).
  assert (RB : read_body (kw_obj KVideo now k part (Some b) None) = Ok (BVideo (mkV f l 16 9 0 None None cs))).
  { rewrite body_of by discriminate. unfold read_video, attr, part. rewrite (video_format_attr now k f 16 9 l _ (Some b) None M), (video_layout_attr now k f 16 9 l _ (Some b) None ML).
    unfold read_comps in C1. set (ccs := map comp_dict (components_for_format f 16 9)) in *. clearbody ccs. cbn [rbind to_int].
    assert (E : components (kw_obj KVideo now k (video_part_kw f 16 9 l (PList ccs)) (Some b) None) = Ok ccs) by (destruct k as [? ? ? ? ? [? ?] [? ?]]; reflexivity).
    rewrite E. cbn [rbind]. rewrite C1. destruct k as [? ? ? ? ? [? ?] [? ?]]. reflexivity. }
  destruct (drawn_reads_25 KVideo now k part (Some b) None (BVideo (mkV f l 16 9 0 None None cs)) (zlen b) (Some b)) as (g & G1 & G2); try apply no_labels; trivial; try discriminate.
  - cbn [gbody_ok]. unfold vmeta_ok. cbn [v_format v_layout v_width v_height v_ext v_sar v_par v_comps ratio_ok]. unfold u32. repeat (split; [assumption || lia || exact I|]). exact C3.
  - exists g. split; [apply kw_own; discriminate|]. split; [exact G1|]. split; [exact G2|]. intros X. discriminate X.
Qed.
(** *** Coded video. *)
Lemma map_res_ints zs : map_res as_count (map PInt zs) = Ok zs.
Proof. induction zs as [|z zs IH]; cbn [map map_res rbind as_count]; [reflexivity|]. rewrite IH. reflexivity. Qed.
Lemma coded_video_writable now o : is_coded_video 16 9 now o -> exists g, writable o g.
Proof.
  intros (k & f & l & key & tm & u & K & F & L & T & U & ->). assert (M : member frame_formats f = true) by apply (coded_video_format_drawn f F). assert (ML : member frame_layouts l = true) by apply (layout_drawn l L).
  set (part := coded_video_part_kw f 16 9 240 135 l (Some key) (Some tm) (coded_end u)).
  assert (RB : read_body (kw_obj KCodedVideo now k part (Some []) None) = Ok (BCoded (mkC f l 16 9 240 135 (Some key) (Some tm) (Some (or_else u []))))).
  { rewrite body_of by discriminate. unfold read_coded, attr, part.
    rewrite (coded_video_format_attr now k f 16 9 240 135 l (Some key) (Some tm) (coded_end u) (Some []) None M), (coded_video_layout_attr now k f 16 9 240 135 l (Some key) (Some tm) (coded_end u) (Some []) None ML).
    unfold unit_offsets. change (o_class (kw_obj KCodedVideo now k (coded_video_part_kw f 16 9 240 135 l (Some key) (Some tm) (coded_end u)) (Some []) None)) with KCodedVideo. cbv iota. rewrite offsets_of.
    cbn [rbind to_int]. rewrite map_res_ints. destruct k as [? ? ? ? ? [? ?] [? ?]]. reflexivity. }
  destruct (drawn_reads_25 KCodedVideo now k part (Some []) None (BCoded (mkC f l 16 9 240 135 (Some key) (Some tm) (Some (or_else u [])))) 0 (Some [])) as (g & G1 & G2); try apply no_labels; trivial; try discriminate.
  - cbn [gbody_ok]. unfold cmeta_ok, units. cbn [c_format c_layout c_ow c_oh c_cw c_ch c_temporal c_units]. unfold u32, i32, u16. repeat (split; [assumption || lia|]).
    destruct u as [u|]; cbn [or_else units_drawn] in *; [|split; [constructor|unfold zlen; cbn; lia]]. destruct U as [U1 U2]. split; [|lia]. apply (Forall_impl _ (fun z (H : 0 <= z <= 256) => ltac:(lia) : 0 <= z < 4294967296) U2).
  - constructor.
  - exists g. split; [apply kw_own; discriminate|]. split; [exact G1|]. split; [exact G2|]. intros X. discriminate X.
Qed.
(** *** Empty grains. *)
Lemma empty_writable now o : is_empty now o -> exists g, writable o g.
Proof.
  intros (k & K & ->). destruct (dk_src _ _ _ K) as (s & S & _). destruct (dk_flow _ _ _ K) as (f & F & _). destruct rats as (_ & _ & _ & _ & R1 & R2).
  destruct (drawn_reads (0, 1) (0, 1) $"empty" now k (empty_obj now k) BEmpty 0 None (empty_common now k s f S F) K R1 R2 R1 R2) as (g & G1 & G2); try reflexivity; try exact I; try constructor.
  exists g. split; [reflexivity|]. split; [exact G1|]. split; [exact G2|]. intros X. discriminate X.
Qed.

(** *** Events: texts in ASCII, values that JSON can carry. *)
Definition ascii (c : Z) : Prop := 0 <= c < 128.
Lemma matches_chars r : forall s, (forall p c, In p r -> fst (fst p) c = true -> ascii c) -> matches r s = true -> Forall ascii s.
Proof.
  induction r as [|[[cls lo] hi] r IH]; intros s P H.
  - cbn [matches] in H. destruct s as [|c [|? ?]]; try discriminate H; [constructor|]. apply Z.eqb_eq in H. subst c. constructor; [unfold ascii; lia|constructor].
  - cbn [matches] in H. revert lo hi H P. induction s as [|c s IHs]; intros lo hi H P; [constructor|]. cbv beta iota in H. apply orb_true_iff in H as [H|H].
    + apply andb_true_iff in H as [_ H]. apply IH; [|exact H]. intros p x I. apply P. right. exact I.
    + destruct hi as [[|hi]|]; [discriminate H|..]; apply andb_true_iff in H as [H1 H2]; (constructor; [exact (P (cls, lo, _) c (or_introl eq_refl) H1)|]);
        apply (IHs _ _ H2); intros [[q a] b] x [E|I] Q; try (apply (P (q, a, b) x (or_intror I) Q)); injection E as <- <- <-; exact (P (cls, lo, _) x (or_introl eq_refl) Q).
Qed.
Lemma among_ascii s c : forallb (between 0 127) s = true -> among s c = true -> ascii c.
Proof. intros F H. unfold among in H. apply existsb_exists in H as (x & I & E). apply Z.eqb_eq in E. subst x. rewrite forallb_forall in F. specialize (F c I). unfold between in F. unfold ascii. lia. Qed.
Lemma lower_ascii c : lower c = true -> ascii c. Proof. unfold lower, between, ascii. lia. Qed.
Lemma digit_ascii c : digit c = true -> ascii c. Proof. unfold digit, between, ascii. lia. Qed.
Lemma word_ascii c : word c = true -> ascii c.
Proof.
  unfold word. intros H. apply orb_true_iff in H as [H|H]; [|exact (among_ascii $"_-" c eq_refl H)]. apply orb_true_iff in H as [H|H]; [|exact (digit_ascii c H)].
  apply orb_true_iff in H as [H|H]; [exact (lower_ascii c H)|]. unfold between in H. unfold ascii. lia.
Qed.
Lemma char_ascii z c : fst (fst (just_char z)) c = true -> ascii z -> ascii c.
Proof. cbn [just_char fst]. intros H A. apply Z.eqb_eq in H. subst c. exact A. Qed.
Lemma topic_ascii s : matches topic_regex s = true -> Forall ascii s.
Proof.
  apply matches_chars. intros p c I H. unfold topic_regex in I. cbn [In] in I. destruct I as [<-|[<-|[]]]; cbn [fst] in H; [exact (word_ascii c H)|].
  apply orb_true_iff in H as [H|H]; [exact (word_ascii c H)|]. unfold ascii. lia.
Qed.
Lemma type_ascii s : matches type_regex s = true -> Forall ascii s.
Proof.
  apply matches_chars. intros p c I H. unfold type_regex in I. apply in_app_iff in I as [I|I].
  - apply in_map_iff in I as (z & <- & I). apply (char_ascii z c H). apply (among_ascii $"urn:" z eq_refl). unfold among. apply existsb_exists. exists z. split; [exact I|apply Z.eqb_refl].
  - cbn [In] in I. destruct I as [<-|[<-|[<-|[<-|[]]]]]; cbn [fst just_char] in H.
    + apply orb_true_iff in H as [H|H]; [exact (lower_ascii c H)|exact (digit_ascii c H)].
    + apply orb_true_iff in H as [H|H]; [|unfold ascii; lia]. apply orb_true_iff in H as [H|H]; [exact (lower_ascii c H)|exact (digit_ascii c H)].
    + unfold ascii. lia.
    + apply orb_true_iff in H as [H|H]; [|refine (among_ascii _ c _ H); reflexivity]. apply orb_true_iff in H as [H|H]; [exact (lower_ascii c H)|exact (digit_ascii c H)].
Qed.
Lemma time_ascii s : time_text s = true -> Forall ascii s.
Proof.
  unfold time_text. destruct (rev s); [discriminate|]. intros H. apply andb_true_iff in H as [_ H]. revert H. apply matches_chars. intros p c I H. cbn [In] in I.
  destruct I as [<-|[<-|[<-|[<-|[]]]]]; cbn [fst just_char] in H; try exact (digit_ascii c H); unfold ascii; lia.
Qed.
Lemma ascii_json s : Forall ascii s -> json_ok (PStr s).
Proof. intros F. constructor. apply (Forall_impl _ (fun c (H : ascii c) => ltac:(unfold ascii, char_ok in *; lia) : char_ok c) F). Qed.
Lemma value_json v : value_drawn v -> json_ok v.
Proof.
  unfold value_drawn, event_value. cbn [can_draw]. intros [H|[H|[H|H]]].
  - destruct v; try (destruct H; fail). constructor.
  - destruct v; try (destruct H; fail). constructor.
  - destruct H as (n & d & _ & ->). apply jok_dict.
    + constructor; [cbn [map fst In]; intros [E|[]]; vm_compute in E; discriminate E|]. constructor; [intros []|constructor].
    + constructor; [|constructor; [|constructor]]; cbn [fst snd]; (split; [|constructor]);
        (match goal with |- Forall char_ok ?s => assert (X : json_ok (PStr s)); [apply ascii_json, Forall_forall; intros c I; apply (among_ascii s c eq_refl); unfold among; apply existsb_exists; exists c; split; [exact I|apply Z.eqb_refl]|inversion X; assumption] end).
  - destruct v; try (destruct H; fail). apply ascii_json, time_ascii, H.
Qed.
Definition entry_fun (x : pv * pv * pv) : entry := fun k => match entry_of x with PDict d => dget k d | _ => None end.
Definition payload_of (kind topic : str) (xs : list (pv * pv * pv)) : EventSpec.payload := mkP (PStr kind) (PStr topic) (map entry_fun xs).
Lemma three_keys (path pre post : pv) : NoDup (map fst [($"path", path); ($"pre", pre); ($"post", post)]).
Proof. constructor; [intros [E|[E|[]]]; vm_compute in E; discriminate E|]. constructor; [intros [E|[]]; vm_compute in E; discriminate E|]. constructor; [intros []|constructor]. Qed.
Lemma entry_is x : entry_drawn x -> is_entry (entry_of x) (entry_fun x).
Proof.
  intros H. destruct (entry_of_drawn x H) as (d & path & pre & post & E & -> & _). unfold entry_fun. rewrite E. eexists. split; [reflexivity|]. split; [apply three_keys|reflexivity].
Qed.
Lemma entry_fun_json x : entry_drawn x -> entry_json_ok (entry_fun x) /\ entry_fun x $"path" <> None /\ forall k, known k = false -> entry_fun x k = None.
Proof.
  intros H. destruct (entry_of_drawn x H) as (d & path & pre & post & E & -> & _ & _ & P1 & P2 & P3). unfold entry_fun. rewrite E. split; [|split].
  - intros k v G. cbn [dget] in G.
    destruct (zlist_eqb k $"path") eqn:K1; [apply zlist_eqb_eq in K1|]; [|destruct (zlist_eqb k $"pre") eqn:K2; [apply zlist_eqb_eq in K2|]; [|destruct (zlist_eqb k $"post") eqn:K3; [apply zlist_eqb_eq in K3|discriminate G]]]; subst k;
      (split; [match goal with |- Forall char_ok ?s => assert (X : json_ok (PStr s)); [apply ascii_json, Forall_forall; intros c I; apply (among_ascii s c eq_refl); unfold among; apply existsb_exists; exists c; split; [exact I|apply Z.eqb_refl]|inversion X; assumption] end|]).
    + assert (X : v = PStr path) by congruence. subst v. apply ascii_json, topic_ascii, P1.
    + assert (X : v = pre) by congruence. subst v. apply value_json, P2.
    + assert (X : v = post) by congruence. subst v. apply value_json, P3.
  - intros X. vm_compute in X. discriminate X.
  - intros k N. unfold known in N. apply orb_false_iff in N as [N N3]. apply orb_false_iff in N as [N1 N2]. cbn [dget]. rewrite N1, N2, N3. reflexivity.
Qed.
Lemma event_good now k kind topic xs : matches type_regex kind = true -> matches topic_regex topic = true -> Forall entry_drawn xs ->
  good_event (kw_obj KEvent now k (event_part kind topic (map entry_of xs)) None None) (payload_of kind topic xs).
Proof.
  intros K T F. split; [|split].
  - eexists; eexists; eexists. split; [reflexivity|]. split; [destruct k as [? ? ? ? ? [? ?] [? ?]]; reflexivity|]. split; [reflexivity|]. split; [reflexivity|]. split; [reflexivity|].
    cbn [payload_of p_entries]. induction F as [|x xs H F IH]; [constructor|]. cbn [map]. constructor; [exact (entry_is x H)|exact IH].
  - split; [apply ascii_json, type_ascii, K|]. split; [apply ascii_json, topic_ascii, T|]. cbn [payload_of p_entries]. apply Forall_map. apply (Forall_impl _ (fun x H => proj1 (entry_fun_json x H)) F).
  - cbn [payload_of p_entries]. apply Forall_map. apply (Forall_impl _ (fun x H => proj1 (proj2 (entry_fun_json x H))) F).
Qed.
Lemma event_writable now o : is_event now o -> exists g, writable o g.
Proof.
  intros (k & kind & topic & xs & K & T1 & T2 & F & ->). set (part := event_part kind topic (map entry_of xs)). pose proof (event_good now k kind topic xs T1 T2 F) as G. fold part in G.
  destruct (data_text (kw_obj KEvent now k part None None) (payload_of kind topic xs) eq_refl (proj1 G) (proj1 (proj2 G))) as (b & B1 & _ & B2).
  destruct (drawn_reads_25 KEvent now k part None None BEvent (zlen b) (Some b)) as (g & G1 & G2); try apply no_labels; trivial; try discriminate; try reflexivity.
  - change (getattr (kw_obj KEvent now k part None None) $"length") with (get_length (kw_obj KEvent now k part None None)). unfold get_length. rewrite B1. reflexivity.
  - exists g. split; [apply kw_own; discriminate|]. split; [exact G1|]. split; [exact G2|]. intros _. exists (payload_of kind topic xs). exact G.
Qed.
