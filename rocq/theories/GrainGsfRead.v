(** What a grain object that the encoder can read looks like. *)
From Coq Require Import String Lia ZifyBool ZifyNat.
From Verif Require Import Base BaseProofs GsfPrim GsfPrimProofs GsfDecode CogEnums GsfEncode GsfSpec GsfFileSpec PyValue PyValueProofs Json JsonProofs GrainObj BuildKw EventProofs GrainGsf GrainGsfSpec GrainGsfMade.
Local Open Scope list_scope.

(** ** UUIDs. *)
Lemma uuid_there u : is_uuid u = true -> uuid_value (uuid_bytes u) = u.
Proof.
  unfold is_uuid. intros H. apply andb_prop in H as [A B]. apply Z.leb_le in A. apply Z.ltb_lt in B.
  unfold uuid_value, uuid_bytes. rewrite rev_involutive, le_dec_enc. apply Z.mod_small. change (256 ^ Z.of_nat 16) with 340282366920938463463374607431768211456. auto.
Qed.
Lemma uuid_back b : uuid_ok b -> uuid_bytes (uuid_value b) = b /\ is_uuid (uuid_value b) = true.
Proof.
  intros [L B]. assert (N : List.length (rev b) = 16%nat) by (rewrite rev_length; unfold zlen in L; lia).
  assert (B' : bytes_ok (rev b)) by (apply Forall_rev; exact B).
  unfold uuid_bytes, uuid_value. split.
  - rewrite <- N, enc_le_dec by exact B'. apply rev_involutive.
  - pose proof (le_dec_bound _ B') as X. unfold zlen in X. rewrite N in X. change (256 ^ Z.of_nat 16) with 340282366920938463463374607431768211456 in X.
    unfold is_uuid. apply andb_true_intro. split; [apply Z.leb_le|apply Z.ltb_lt]; apply X.
Qed.

(** ** Reading step by step. *)
Lemma attr_ok {A} (f : pv -> res A) n o x : attr f n o = Ok x -> exists v, getattr o n = Ok v /\ f v = Ok x.
Proof. apply rbind_ok. Qed.
Lemma as_id_ok v b : as_id v = Ok b -> exists u, v = PUuid u /\ is_uuid u = true /\ b = uuid_bytes u.
Proof. destruct v; cbn [as_id]; try discriminate. intros H. exists u. destruct (is_uuid u); [|discriminate]. split; [reflexivity|]. split; [reflexivity|]. symmetry. exact (Ok_eq _ _ H). Qed.
Lemma as_time_ok v t : as_time v = Ok t -> v = PTime t.
Proof. destruct v; cbn [as_time]; try discriminate. intros H. apply Ok_eq in H. congruence. Qed.
Lemma as_frac_ok v r : as_frac v = Ok r -> v = frac_pv r.
Proof. destruct v; cbn [as_frac]; try discriminate. intros H. apply Ok_eq in H. subst r. reflexivity. Qed.
Lemma as_ratio_ok v r : as_ratio v = Ok r -> v = ratio_or_none r.
Proof.
  destruct v; cbn [as_ratio as_frac rbind]; try discriminate; intros H; apply Ok_eq in H; subst r; reflexivity.
Qed.
Lemma as_count_ok v z : as_count v = Ok z -> whole v z.
Proof. destruct v; cbn [as_count]; try discriminate; intros H; apply Ok_eq in H; subst z; reflexivity. Qed.
Lemma as_flag_ok v k : as_flag v = Ok k -> match k with None => v = PNone | Some b => v <> PNone /\ whole v (Z.b2z b) end.
Proof.
  destruct v; cbn [as_flag]; try discriminate; intros H.
  - apply Ok_eq in H. subst k. reflexivity.
  - apply Ok_eq in H. subst k. split; [discriminate|reflexivity].
  - destruct (z =? 0) eqn:E; [apply Z.eqb_eq in E; subst z; apply Ok_eq in H; subst k; split; [discriminate|reflexivity]|].
    destruct (z =? 1) eqn:F; [|discriminate]. apply Z.eqb_eq in F; subst z; apply Ok_eq in H; subst k; split; [discriminate|reflexivity].
Qed.
Lemma as_int_or_none_ok v t : as_int_or_none v = Ok t -> match t with None => v = PNone | Some z => v <> PNone /\ to_int v = Ok z end.
Proof.
  destruct v; cbn [as_int_or_none]; intros H; try (apply rbind_ok in H as (z' & H & E); apply Ok_eq in E; subst t; split; [discriminate|exact H]).
  apply Ok_eq in H. subst t. reflexivity.
Qed.
Lemma map_res_ok {A B} (f : A -> res B) l r : map_res f l = Ok r -> Forall2 (fun x y => f x = Ok y) l r.
Proof.
  revert r. induction l as [|x l IH]; cbn [map_res]; intros r H.
  - apply Ok_eq in H. subst r. constructor.
  - apply rbind_ok in H as (y & E & H). apply rbind_ok in H as (r' & E' & H). apply Ok_eq in H. subst r. constructor; auto.
Qed.

Record common_read (o : gobj) (g : grain) : Prop := {
  cr_source : exists u, getattr o $"source_id" = Ok (PUuid u) /\ is_uuid u = true /\ g_src g = uuid_bytes u;
  cr_flow : exists u, getattr o $"flow_id" = Ok (PUuid u) /\ is_uuid u = true /\ g_flow g = uuid_bytes u;
  cr_origin : getattr o $"origin_timestamp" = Ok (PTime (g_origin g));
  cr_sync : getattr o $"sync_timestamp" = Ok (PTime (g_sync g));
  cr_rate : getattr o $"rate" = Ok (frac_pv (g_rate g));
  cr_duration : getattr o $"duration" = Ok (frac_pv (g_dur g));
  cr_labels : exists l, labels o = Ok l /\ Forall2 (fun d t => read_label d = Ok t) l (g_tils g);
  cr_body : read_body o = Ok (g_body g);
  cr_length : attr to_int $"length" o = Ok (g_len g);
  cr_data : get_data o = Ok (g_data g) }.
Lemma grain_read o g : read_grain o = Ok g -> common_read o g.
Proof.
  unfold read_grain. intros H. apply rbind_ok in H as (src & Hs & H). apply rbind_ok in H as (flow & Hf & H). apply rbind_ok in H as (t & Ht & H).
  apply rbind_ok in H as (s & Hy & H). apply rbind_ok in H as (r & Hr & H). apply rbind_ok in H as (d & Hd & H). apply rbind_ok in H as (ls & Hl & H).
  apply rbind_ok in H as (b & Hb & H). apply rbind_ok in H as (n & Hn & H). apply rbind_ok in H as (x & Hx & H). apply Ok_eq in H. subst g.
  apply attr_ok in Hs as (v1 & A1 & B1). apply attr_ok in Hf as (v2 & A2 & B2). apply attr_ok in Ht as (v3 & A3 & B3). apply attr_ok in Hy as (v4 & A4 & B4).
  apply attr_ok in Hr as (v5 & A5 & B5). apply attr_ok in Hd as (v6 & A6 & B6). apply rbind_ok in Hl as (l & A7 & B7).
  apply as_id_ok in B1 as (u1 & -> & U1 & E1). apply as_id_ok in B2 as (u2 & -> & U2 & E2). apply as_time_ok in B3. apply as_time_ok in B4. apply as_frac_ok in B5. apply as_frac_ok in B6.
  subst v3 v4 v5 v6.
  constructor; cbn [g_src g_flow g_origin g_sync g_rate g_dur g_tils g_body g_len g_data]; auto.
  - exists u1. auto.
  - exists u2. auto.
  - exists l. split; [exact A7|]. exact (map_res_ok _ _ _ B7).
Qed.

(** ** The body. *)
Lemma own_body o : of_own_type o -> read_body o =
  match o_class o with
  | KGrain => Ok BEmpty | KEvent => Ok BEvent
  | KVideo => rbind (read_video o) (fun v => Ok (BVideo v)) | KCodedVideo => rbind (read_coded o) (fun c => Ok (BCoded c))
  | KAudio => rbind (read_audio o) (fun a => Ok (BAudio a)) | KCodedAudio => rbind (read_coded_audio o) (fun a => Ok (BCAudio a))
  end.
Proof. intros T. unfold read_body. rewrite T. destruct (o_class o); reflexivity. Qed.

Lemma enum_value s k l o v z : enum_attr s k l o = Ok v -> to_int v = Ok z -> v = PInt z.
Proof.
  unfold enum_attr. intros H. apply rbind_ok in H as (w & _ & H). unfold to_member in H. destruct (as_q w) as [[n d]|]; [|discriminate].
  destruct d as [|[p|p|]|p]; try discriminate H. apply rbind_ok in H as (y & _ & H). apply Ok_eq in H. subst v. cbn [to_int]. intros E. apply Ok_eq in E. subst. reflexivity.
Qed.
Lemma read_enum n s k l o z : getattr o n = enum_attr s k l o -> attr to_int n o = Ok z -> enum_attr s k l o = Ok (PInt z).
Proof. intros E H. apply attr_ok in H as (v & A & B). rewrite E in A. rewrite A. f_equal. exact (enum_value _ _ _ _ _ _ A B). Qed.
Definition read_number (o : gobj) (n : str) (z : Z) : Prop := exists v, getattr o n = Ok v /\ to_int v = Ok z.

Record video_read (o : gobj) (v : vmeta) : Prop := {
  vr_format : forall n, In n [$"format"; $"cog_frame_format"] -> getattr o n = Ok (PInt (v_format v));
  vr_layout : forall n, In n [$"layout"; $"cog_frame_layout"] -> getattr o n = Ok (PInt (v_layout v));
  vr_width : read_number o $"width" (v_width v); vr_height : read_number o $"height" (v_height v); vr_ext : read_number o $"extension" (v_ext v);
  vr_sar : getattr o $"source_aspect_ratio" = Ok (ratio_or_none (v_sar v)); vr_par : getattr o $"pixel_aspect_ratio" = Ok (ratio_or_none (v_par v));
  vr_comps : exists l, in_section $"cog_frame" $"components" o = Ok (PList l) /\ Forall2 (fun d c => read_comp d = Ok c) l (v_comps v) }.
Lemma video_read_ok o v : o_class o = KVideo -> read_video o = Ok v -> video_read o v.
Proof.
  intros C. unfold read_video. intros H. apply rbind_ok in H as (f & Hf & H). apply rbind_ok in H as (l & Hl & H). apply rbind_ok in H as (w & Hw & H).
  apply rbind_ok in H as (h & Hh & H). apply rbind_ok in H as (x & Hx & H). apply rbind_ok in H as (s & Hs & H). apply rbind_ok in H as (p & Hp & H).
  apply rbind_ok in H as (cs & Hc & H). apply Ok_eq in H. subst v.
  assert (F : forall n, In n [$"format"; $"cog_frame_format"] -> getattr o n = enum_attr $"cog_frame" $"format" frame_formats o) by (intros n [<-|[<-|[]]]; unfold getattr; rewrite C; reflexivity).
  assert (L : forall n, In n [$"layout"; $"cog_frame_layout"] -> getattr o n = enum_attr $"cog_frame" $"layout" frame_layouts o) by (intros n [<-|[<-|[]]]; unfold getattr; rewrite C; reflexivity).
  constructor; cbn [v_format v_layout v_width v_height v_ext v_sar v_par v_comps].
  - intros n I. rewrite (F n I). apply (read_enum $"cog_frame_format"); [apply F; right; left; reflexivity|exact Hf].
  - intros n I. rewrite (L n I). apply (read_enum $"cog_frame_layout"); [apply L; right; left; reflexivity|exact Hl].
  - exact (attr_ok _ _ _ _ Hw).
  - exact (attr_ok _ _ _ _ Hh).
  - exact (attr_ok _ _ _ _ Hx).
  - apply attr_ok in Hs as (v & A & B). apply as_ratio_ok in B. congruence.
  - apply attr_ok in Hp as (v & A & B). apply as_ratio_ok in B. congruence.
  - apply rbind_ok in Hc as (l' & A & B). unfold components in A. rewrite C in A. apply rbind_ok in A as (q & A & A'). destruct q; try discriminate A'. apply Ok_eq in A'. subst l0.
    exists l'. split; [exact A|]. exact (map_res_ok _ _ _ B).
Qed.

Record coded_read (o : gobj) (c : cmeta) : Prop := {
  dr_format : forall n, In n [$"format"; $"cog_frame_format"] -> getattr o n = Ok (PInt (c_format c));
  dr_layout : forall n, In n [$"layout"; $"cog_frame_layout"] -> getattr o n = Ok (PInt (c_layout c));
  dr_ow : read_number o $"origin_width" (c_ow c); dr_oh : read_number o $"origin_height" (c_oh c);
  dr_cw : read_number o $"coded_width" (c_cw c); dr_ch : read_number o $"coded_height" (c_ch c);
  dr_key : exists v, getattr o $"is_key_frame" = Ok v /\ match c_key c with None => v = PNone | Some b => v <> PNone /\ whole v (Z.b2z b) end;
  dr_temporal : exists v, getattr o $"temporal_offset" = Ok v /\ match c_temporal c with None => v = PNone | Some z => v <> PNone /\ to_int v = Ok z end;
  dr_units : exists l, offsets o = Ok l /\ Forall2 whole l (units c);
  dr_some : c_units c = Some (units c) }.
Lemma coded_read_ok o c : o_class o = KCodedVideo -> read_coded o = Ok c -> coded_read o c.
Proof.
  intros C. unfold read_coded. intros H. apply rbind_ok in H as (f & Hf & H). apply rbind_ok in H as (l & Hl & H). apply rbind_ok in H as (ow & How & H).
  apply rbind_ok in H as (oh & Hoh & H). apply rbind_ok in H as (cw & Hcw & H). apply rbind_ok in H as (ch & Hch & H). apply rbind_ok in H as (k & Hk & H).
  apply rbind_ok in H as (t & Ht & H). apply rbind_ok in H as (u & Hu & H). apply Ok_eq in H. subst c.
  assert (F : forall n, In n [$"format"; $"cog_frame_format"] -> getattr o n = enum_attr $"cog_coded_frame" $"format" frame_formats o) by (intros n [<-|[<-|[]]]; unfold getattr; rewrite C; reflexivity).
  assert (L : forall n, In n [$"layout"; $"cog_frame_layout"] -> getattr o n = enum_attr $"cog_coded_frame" $"layout" frame_layouts o) by (intros n [<-|[<-|[]]]; unfold getattr; rewrite C; reflexivity).
  constructor; cbn [c_format c_layout c_ow c_oh c_cw c_ch c_key c_temporal c_units units].
  - intros n I. rewrite (F n I). apply (read_enum $"cog_frame_format"); [apply F; right; left; reflexivity|exact Hf].
  - intros n I. rewrite (L n I). apply (read_enum $"cog_frame_layout"); [apply L; right; left; reflexivity|exact Hl].
  - exact (attr_ok _ _ _ _ How).
  - exact (attr_ok _ _ _ _ Hoh).
  - exact (attr_ok _ _ _ _ Hcw).
  - exact (attr_ok _ _ _ _ Hch).
  - apply attr_ok in Hk as (v & A & B). exists v. split; [exact A|]. exact (as_flag_ok _ _ B).
  - apply attr_ok in Ht as (v & A & B). exists v. split; [exact A|]. exact (as_int_or_none_ok _ _ B).
  - apply rbind_ok in Hu as (l' & A & B). unfold unit_offsets in A. rewrite C in A. exists l'. split; [exact A|]. apply map_res_ok in B.
    clear - B. induction B as [|x y l r X B IH]; constructor; auto. apply as_count_ok, X.
  - reflexivity.
Qed.

Record audio_read (o : gobj) (a : ameta) : Prop := {
  ar_format : forall n, In n [$"format"; $"cog_audio_format"] -> getattr o n = Ok (PInt (a_format a));
  ar_samples : read_number o $"samples" (a_samples a); ar_channels : read_number o $"channels" (a_channels a); ar_rate : read_number o $"sample_rate" (a_rate a) }.
Lemma audio_read_ok o a : o_class o = KAudio -> read_audio o = Ok a -> audio_read o a.
Proof.
  intros C. unfold read_audio. intros H. apply rbind_ok in H as (f & Hf & H). apply rbind_ok in H as (c & Hc & H). apply rbind_ok in H as (s & Hs & H).
  apply rbind_ok in H as (r & Hr & H). apply Ok_eq in H. subst a.
  assert (F : forall n, In n [$"format"; $"cog_audio_format"] -> getattr o n = enum_attr $"cog_audio" $"format" audio_formats o) by (intros n [<-|[<-|[]]]; unfold getattr; rewrite C; reflexivity).
  constructor; cbn [a_format a_samples a_channels a_rate].
  - intros n I. rewrite (F n I). apply (read_enum $"cog_audio_format"); [apply F; right; left; reflexivity|exact Hf].
  - exact (attr_ok _ _ _ _ Hs).
  - exact (attr_ok _ _ _ _ Hc).
  - exact (attr_ok _ _ _ _ Hr).
Qed.
Record coded_audio_read (o : gobj) (a : cameta) : Prop := {
  br_format : forall n, In n [$"format"; $"cog_audio_format"] -> getattr o n = Ok (PInt (ca_format a));
  br_samples : read_number o $"samples" (ca_samples a); br_channels : read_number o $"channels" (ca_channels a); br_rate : read_number o $"sample_rate" (ca_rate a);
  br_priming : read_number o $"priming" (ca_priming a); br_remainder : read_number o $"remainder" (ca_remainder a) }.
Lemma coded_audio_read_ok o a : o_class o = KCodedAudio -> read_coded_audio o = Ok a -> coded_audio_read o a.
Proof.
  intros C. unfold read_coded_audio. intros H. apply rbind_ok in H as (f & Hf & H). apply rbind_ok in H as (c & Hc & H). apply rbind_ok in H as (s & Hs & H).
  apply rbind_ok in H as (p & Hp & H). apply rbind_ok in H as (m & Hm & H). apply rbind_ok in H as (r & Hr & H). apply Ok_eq in H. subst a.
  assert (F : forall n, In n [$"format"; $"cog_audio_format"] -> getattr o n = enum_attr $"cog_coded_audio" $"format" audio_formats o) by (intros n [<-|[<-|[]]]; unfold getattr; rewrite C; reflexivity).
  constructor; cbn [ca_format ca_samples ca_channels ca_rate ca_priming ca_remainder].
  - intros n I. rewrite (F n I). apply (read_enum $"cog_audio_format"); [apply F; right; left; reflexivity|exact Hf].
  - exact (attr_ok _ _ _ _ Hs).
  - exact (attr_ok _ _ _ _ Hc).
  - exact (attr_ok _ _ _ _ Hr).
  - exact (attr_ok _ _ _ _ Hp).
  - exact (attr_ok _ _ _ _ Hm).
Qed.

(** ** Labels and components. *)
Lemma at_sub k d z : rbind (sub k (PDict d)) as_count = Ok z -> at_key k d z.
Proof.
  intros H. apply rbind_ok in H as (v & A & B). cbn [sub] in A. unfold ditem in A. destruct (dget k d) as [v'|] eqn:E; [|discriminate]. apply Ok_eq in A. subst v'.
  exists v. split; [exact E|]. exact (as_count_ok _ _ B).
Qed.
Lemma norm_lowest n m : 0 <= m -> lowest n m (fst (rat_norm n m)) (snd (rat_norm n m)).
Proof.
  intros M. pose proof (rat_norm_ok n m M) as [D G]. unfold lowest. destruct (Z.eq_dec n 0) as [->|N]; [left; split; [left; reflexivity|]; split; reflexivity|].
  destruct (Z.eq_dec m 0) as [->|N']; [left; split; [right; reflexivity|]; unfold rat_norm; rewrite Bool.orb_true_r; split; reflexivity|].
  right. split; [exact N|]. split; [exact N'|]. split; [exact G|]. split; [exact D|].
  unfold rat_norm. replace ((n =? 0) || (m =? 0)) with false by lia. unfold mk_rat. cbn [fst snd].
  assert (P : 0 < Z.gcd n m) by (pose proof (Z.gcd_nonneg n m); pose proof (Z.gcd_eq_0_l n m); lia).
  destruct (Z.gcd_divide_l n m) as [a A], (Z.gcd_divide_r n m) as [b B]. set (g := Z.gcd n m) in *. rewrite A, B.
  rewrite !Z.div_mul by lia. ring.
Qed.
Lemma label_kept d t : read_label d = Ok t -> 0 <= tl_den t -> label_after d (til_dict (norm_til t)).
Proof.
  unfold read_label. intros H. apply rbind_ok in H as (tag & Ht & H). apply rbind_ok in H as (l & Hl & H). apply rbind_ok in H as (c & Hc & H).
  apply rbind_ok in H as (n & Hn & H). apply rbind_ok in H as (m & Hm & H). apply rbind_ok in H as (x & Hx & H). apply Ok_eq in H. subst t. cbn [tl_den]. intros M.
  apply rbind_ok in Ht as (v & A & B). unfold ditem in A. destruct (dget $"tag" d) as [v'|] eqn:E; [|discriminate]. apply Ok_eq in A. subst v'. destruct v; try discriminate B. apply Ok_eq in B. subst s.
  unfold ditem in Hl. destruct (dget $"timelabel" d) as [l'|] eqn:E'; [|discriminate]. apply Ok_eq in Hl. subst l'. destruct l as [| | | | | | | | | |l]; try discriminate Hx.
  exists tag, l, c, n, m, x, (fst (rat_norm n m)), (snd (rat_norm n m)). split; [exact E|]. split; [exact E'|]. split; [exact (at_sub _ _ _ Hc)|]. split; [exact (at_sub _ _ _ Hn)|].
  split; [exact (at_sub _ _ _ Hm)|]. split.
  - cbn [sub] in Hx. unfold ditem in Hx. destruct (dget $"drop_frame" l); [apply Ok_eq in Hx; congruence|discriminate].
  - split; [apply norm_lowest; exact M|]. reflexivity.
Qed.
Lemma labels_kept l ts : Forall2 (fun d t => read_label d = Ok t) l ts -> Forall til_ok ts -> Forall2 label_after l (map til_dict (map norm_til ts)).
Proof.
  induction 1 as [|d t l ts X _ IH]; cbn [map]; intros F; constructor.
  - apply label_kept; [exact X|]. apply Forall_inv in F as (_ & _ & _ & [M _]). exact M.
  - apply IH. exact (Forall_inv_tail F).
Qed.
Lemma comps_kept l cs : Forall2 (fun d c => read_comp d = Ok c) l cs -> forall start, comps_after start l (map comp_pv (norm_comps start cs)).
Proof.
  induction 1 as [|d c l cs X _ IH]; intros start; cbn [map norm_comps]; [constructor|].
  unfold read_comp in X. apply rbind_ok in X as (w & Hw & X). apply rbind_ok in X as (h & Hh & X). apply rbind_ok in X as (s & Hs & X). apply rbind_ok in X as (n & Hn & X).
  apply Ok_eq in X. subst c. destruct d as [| | | | | | | | | |d]; try (apply rbind_ok in Hw as (q & Hw & _); discriminate Hw). cbn [co_width co_height co_stride co_length].
  constructor; auto using at_sub.
Qed.
