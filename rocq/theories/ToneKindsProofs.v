From Coq Require Import Lia ZifyBool ZifyNat.
From Verif Require Import Base BaseProofs CogEnums VideoLayout LayoutSpec GsfPrim GsfPrimProofs NpView PatternTime Tone PatternSpec PatternTimeProofs ToneProofs ToneKinds ToneKindsSpec.

Lemma enc_zero n : Forall (fun x => x = 0) (enc_uint n 0).
Proof. induction n as [|n IH]; cbn [enc_uint]; constructor; [reflexivity|exact IH]. Qed.
Lemma chunks_zero n l : Forall (fun x => x = 0) l -> Forall (fun x => x = 0) (concat (map (enc_uint n) l)).
Proof. induction 1 as [|x l X _ IH]; [constructor|]. cbn [map concat]. subst x. apply Forall_app. split; [apply enc_zero|exact IH]. Qed.
Lemma repeat_zero l n : Forall (fun x => x = 0) l -> Forall (fun x : Z => x = 0) (repeat_list n l).
Proof. intros F. unfold repeat_list. induction (Z.to_nat n) as [|m IH]; [constructor|]. cbn [repeat concat]. apply Forall_app. split; assumption. Qed.
Lemma dup_zero l n : Forall (fun x => x = 0) l -> Forall (fun x : Z => x = 0) (flat_map (fun x => repeat x n) l).
Proof. induction 1 as [|x l X _ IH]; [constructor|]. cbn [flat_map]. apply Forall_app. split; [|exact IH]. subst x. clear. induction n; cbn [repeat]; constructor; auto. Qed.
Lemma spread_zero t a l : Forall (fun x => x = 0) l -> Forall (fun x => x = 0) (spread t a l).
Proof. intros F. destruct a; cbn [spread]; [apply repeat_zero; exact F|apply repeat_zero, dup_zero; exact F|apply dup_zero; exact F]. Qed.
Lemma made_silence a t : new_silence a = Ok t -> t = mkTone (ta_samples a) (ta_channels a) (ta_format a) (ta_rate a) 0 (silent_wave (ta_rate a)).
Proof.
  unfold new_silence, new_tone. destruct (ta_samples a =? 0); [discriminate|]. destruct (ta_rate a =? 0); [discriminate|]. cbn [t_samples t_format]. destruct (ta_samples a =? 0); [discriminate|].
  destruct (tone_depth _); [|discriminate]. intros H. injection H as <-. reflexivity.
Qed.
Lemma quiet r d n : 0 < r -> silent_wave r d n = 0.
Proof. intros R. unfold silent_wave. replace (r <? 0) with false by lia. reflexivity. Qed.
Lemma zero_fits d : sample_fits d 0.
Proof. destruct d; cbn [sample_fits]; lia. Qed.

Theorem silence_silent a r size d : In (ta_format a, (r, size, d)) tone_table -> args_ok a r ->
  exists t, new_silence a = Ok t /\
  forall k key, let c := count_at k key (ta_rate a, 1) in
    (c mod ta_samples a <> 0 -> snd (tone_get k t [] key) = Ok None) /\
    (c mod ta_samples a = 0 -> exists data, nothing (size_for_audio_format (ta_format a) (ta_channels a) (ta_samples a)) data /\
      snd (tone_get k t [] key) = Ok (Some (mkTg (grid k (ta_rate a, 1) c) (tone_rate t) data))).
Proof.
  intros I (S & C & R & P). set (t := mkTone (ta_samples a) (ta_channels a) (ta_format a) (ta_rate a) 0 (silent_wave (ta_rate a))).
  destruct (tone_entry _ _ _ _ I) as (D & _). assert (T : tone_ok t r d).
  { unfold tone_ok, t. cbn [t_samples t_channels t_sample_rate t_frequency t_wave]. do 4 (split; [lia|]). split; [exact P|]. intros n. rewrite quiet by exact R. apply zero_fits. }
  exists t. split.
  { unfold new_silence, new_tone. replace (ta_samples a =? 0) with false by lia. replace (ta_rate a =? 0) with false by lia. cbn [t_samples t_format]. replace (ta_samples a =? 0) with false by lia.
    rewrite D. reflexivity. }
  intros k key c. destruct (tone_at k t r size d key I T) as [N Y]. cbn [t_samples t_sample_rate t] in N, Y. fold c in N, Y. split; [exact N|]. intros M.
  destruct (Y M) as (data & G & _ & L & _). exists data. cbn [t_format t_channels t_samples t] in L. split; [|exact G]. split; [exact L|].
  revert G. unfold tone_get. cbn [t_samples t_sample_rate t]. fold c. rewrite M. cbn [Z.eqb negb]. change (looplen t) with 1. cbn [Z.eqb].
  destruct (fresh_ok t r size d (c mod 1) I T) as (line & HL & HN & F). unfold get_samples. cbn [cached]. rewrite F. cbn [snd rbind]. intros G. injection G as <-.
  apply Forall_forall. intros x X. rewrite zfirst_firstn in X. assert (X' : In x (concat (map (enc_uint (dsize d)) (spread t r line)))).
  { match type of X with In _ (firstn ?n ?l) => rewrite <- (firstn_skipn n l); apply in_or_app; left; exact X end. }
  clear X. revert x X'. rewrite <- Forall_forall. apply chunks_zero, spread_zero. apply Forall_forall. intros y Y'. destruct (In_nth line y 0 Y') as (i & B & <-).
  specialize (HN (Z.of_nat i)). rewrite Nat2Z.id in HN. rewrite HN; [|cbn [t_samples t] in *; lia]. unfold wave_at. cbn [t_wave t]. apply quiet. exact R.
Qed.
(** Formats that are refused, and divisions by zero. *)
Theorem silence_refused a : ta_samples a <> 0 -> ta_rate a <> 0 -> ~ In (ta_format a) (0x4 :: map fst tone_table) -> new_silence a = Err EValue.
Proof.
  intros S R N. unfold new_silence, new_tone. replace (ta_samples a =? 0) with false by lia. replace (ta_rate a =? 0) with false by lia. cbn [t_samples t_format]. replace (ta_samples a =? 0) with false by lia.
  destruct (tone_depth (ta_format a)) eqn:D; [|reflexivity]. exfalso. apply N. revert D. generalize (ta_format a). clear. intros f. unfold tone_depth, member, tone_table. cbn [map fst].
  repeat match goal with |- (if ?b then _ else _) = _ -> _ => destruct b eqn:B; [intros _; apply existsb_exists in B as (x & I & E); apply Z.eqb_eq in E; subst x; cbn [In] in *; tauto|clear B] end. discriminate.
Qed.
(** A tone of 1 kHz repeats: what get gives depends only on the place in a millisecond, or in a second if a millisecond is no whole number of samples. *)
Lemma get_payload k t key key' p : 0 < p -> looplen t = p -> let c := count_at k key (t_sample_rate t, 1) in let c' := count_at k key' (t_sample_rate t, 1) in
  c mod t_samples t = 0 -> c' mod t_samples t = 0 -> (c - c') mod p = 0 -> payload_of (snd (tone_get k t [] key)) = payload_of (snd (tone_get k t [] key')).
Proof.
  intros P L c c' M M' Q. unfold tone_get. fold c c'. rewrite M, M', L. cbn [Z.eqb negb]. replace (p =? 0) with false by lia.
  assert (E : c mod p = c' mod p). { replace c with (c' + (c - c') / p * p) by (pose proof (Z.div_mod (c - c') p); lia). apply Z.mod_add. lia. }
  rewrite E. unfold get_samples. cbn [cached]. destruct (fresh_samples t (c' mod p)); reflexivity.
Qed.
Theorem tone1k_repeats a wave t : new_tone1k a wave = Ok t -> 0 < ta_rate a -> exists p, (if ta_rate a mod 1000 =? 0 then p * 1000 = ta_rate a else p = ta_rate a) /\
  forall k key key', let c := count_at k key (ta_rate a, 1) in let c' := count_at k key' (ta_rate a, 1) in
    c mod ta_samples a = 0 -> c' mod ta_samples a = 0 -> (c - c') mod p = 0 -> payload_of (snd (tone_get k t [] key)) = payload_of (snd (tone_get k t [] key')).
Proof.
  intros E R. assert (T : t = mkTone (ta_samples a) (ta_channels a) (ta_format a) (ta_rate a) 1000 wave).
  { revert E. unfold new_tone1k, new_tone. cbn [t_samples t_format]. destruct (ta_samples a =? 0); [discriminate|]. destruct (tone_depth _); [|discriminate]. intros H. injection H as <-. reflexivity. }
  exists (looplen t). assert (B : if ta_rate a mod 1000 =? 0 then looplen t * 1000 = ta_rate a else looplen t = ta_rate a).
  { rewrite T. unfold looplen. cbn [t_frequency t_sample_rate]. change (1000 =? 0) with false. cbv iota. destruct (Z.eqb_spec (ta_rate a mod 1000) 0) as [Z|Z]; [|reflexivity].
    pose proof (Z.div_mod (ta_rate a) 1000). lia. }
  split; [exact B|]. intros k key key' c c' M M' Q. assert (P : 0 < looplen t) by (destruct (ta_rate a mod 1000 =? 0); lia).
  apply (get_payload k t key key' (looplen t) P eq_refl); rewrite T; cbn [t_sample_rate t_samples]; [exact M|exact M'|rewrite <- T; exact Q].
Qed.
(** Planes of 24 bits: three bytes of every four. *)
Theorem silence_planes a : ta_format a = 0x4 -> args_ok a Planes -> exists t, new_silence a = Ok t /\
  forall k key, let c := count_at k key (ta_rate a, 1) in c mod ta_samples a = 0 -> exists data, nothing (3 * ta_channels a * ta_samples a) data /\
    snd (tone_get k t [] key) = Ok (Some (mkTg (grid k (ta_rate a, 1) c) (tone_rate t) data)) /\ zlen data < size_for_audio_format (ta_format a) (ta_channels a) (ta_samples a).
Proof.
  intros E (S & C & R & _). set (t := mkTone (ta_samples a) (ta_channels a) (ta_format a) (ta_rate a) 0 (silent_wave (ta_rate a))). exists t. split.
  { unfold new_silence, new_tone. replace (ta_samples a =? 0) with false by lia. replace (ta_rate a =? 0) with false by lia. cbn [t_samples t_format]. replace (ta_samples a =? 0) with false by lia. assert (D : tone_depth (ta_format a) = Some D24) by (rewrite E; reflexivity). rewrite D. reflexivity. }
  intros k key c M. assert (Z4 : size_for_audio_format (ta_format a) (ta_channels a) (ta_samples a) = ta_channels a * ta_samples a * 4) by (rewrite E; reflexivity).
  unfold tone_get. cbn [t_samples t_sample_rate t]. fold c. rewrite M. cbn [Z.eqb negb]. change (looplen t) with 1. cbn [Z.eqb].
  assert (F : exists line, List.length line = Z.to_nat (ta_samples a) /\ Forall (fun x => x = 0) line /\ fresh_samples t (c mod 1) = Ok (concat (map (enc_uint 3) (spread t Planes line)))).
  { exists (map (fun _ => 0) (zrange (ta_samples a))). split; [rewrite map_length; apply zrange_len; lia|]. split; [apply Forall_forall; intros x X; apply in_map_iff in X as (? & <- & _); reflexivity|].
    unfold fresh_samples. cbn [t_format t]. rewrite E. change (tone_depth 4) with (Some D24). change (tone_lay 4) with (Some LPlanes). cbv iota. unfold tone_line. change (looplen t) with 1. change (zrange 1) with [0].
    cbn [map t_wave t t_samples t_channels]. change (zlen [silent_wave (ta_rate a) D24 0]) with 1. change ((1 =? 0) && _) with false. cbv iota. cbn [rbind].
    assert (Q : map (fun i => nth (Z.to_nat ((c mod 1 + i) mod 1)) [silent_wave (ta_rate a) D24 0] 0) (zrange (ta_samples a)) = map (fun _ => 0) (zrange (ta_samples a))).
    { apply map_ext. intros i. rewrite Z.mod_1_r. cbn [Z.to_nat nth]. apply quiet. exact R. }
    rewrite Q. change 3%nat with (dsize D24). apply (pack_ok t D24).
    - intros x X. assert (x = 0) as ->; [|apply zero_fits]. assert (Fz : Forall (fun x => x = 0) (spread t Planes (map (fun _ => 0) (zrange (ta_samples a))))).
      { apply spread_zero. apply Forall_forall. intros y Y. apply in_map_iff in Y as (? & <- & _). reflexivity. }
      rewrite Forall_forall in Fz. apply Fz. exact X.
    - destruct (spread_facts t Planes (map (fun _ => 0) (zrange (ta_samples a)))) as [L _]; cbn [t_samples t_channels t]; try lia; [discriminate|rewrite map_length; apply zrange_len; lia|].
      etransitivity; [exact L|]. cbn [t_channels t_samples t]. rewrite !Z.max_r by lia. ring. }
  destruct F as (line & L & F0 & F). exists (concat (map (enc_uint 3) (spread t Planes line))). destruct (spread_facts t Planes line) as [SL _]; cbn [t_samples t_channels t]; try lia; [discriminate|].
  cbn [t_samples t_channels t] in SL.
  assert (ZL : zlen (concat (map (enc_uint 3) (spread t Planes line))) = 3 * ta_channels a * ta_samples a) by (rewrite zlen_chunks, SL; lia).
  assert (PP : 0 < ta_channels a * ta_samples a) by (apply Z.mul_pos_pos; assumption).
  split; [split; [exact ZL|apply chunks_zero, spread_zero; exact F0]|]. unfold get_samples. cbn [cached]. rewrite F. cbn [snd rbind t_format t_channels t].
  split; [|rewrite ZL, Z4; lia]. rewrite zfirst_all; [reflexivity|]. rewrite ZL, Z4. lia.
Qed.
Theorem tone1k_samples a wave r size d : In (ta_format a, (r, size, d)) tone_table -> args_ok a r -> (forall n, sample_fits d (wave d n)) ->
  exists t p, new_tone1k a wave = Ok t /\ (if ta_rate a mod 1000 =? 0 then p * 1000 = ta_rate a else p = ta_rate a) /\
  forall k key, let c := count_at k key (ta_rate a, 1) in
    (c mod ta_samples a <> 0 -> snd (tone_get k t [] key) = Ok None) /\
    (c mod ta_samples a = 0 -> exists data, snd (tone_get k t [] key) = Ok (Some (mkTg (grid k (ta_rate a, 1) c) (fraction (ta_rate a) (ta_samples a)) data)) /\
      zlen data = size_for_audio_format (ta_format a) (ta_channels a) (ta_samples a) /\
      forall ch i, 0 <= ch < ta_channels a -> 0 <= i < ta_samples a ->
        little_endian (sample_bytes size data (position r (ta_channels a) (ta_samples a) ch i)) = wave d ((c + i) mod p) mod 2 ^ (8 * size)).
Proof.
  intros I (S & C & R & P) W. set (t := mkTone (ta_samples a) (ta_channels a) (ta_format a) (ta_rate a) 1000 wave).
  destruct (tone_entry _ _ _ _ I) as (D & _). assert (T : tone_ok t r d).
  { unfold tone_ok, t. cbn [t_samples t_channels t_sample_rate t_frequency t_wave]. do 4 (split; [lia|]). split; [exact P|exact W]. }
  exists t, (looplen t). split.
  { unfold new_tone1k, new_tone. cbn [t_samples t_format]. replace (ta_samples a =? 0) with false by lia. rewrite D. reflexivity. }
  split.
  { unfold looplen. cbn [t_frequency t_sample_rate t]. change (1000 =? 0) with false. cbv iota. destruct (Z.eqb_spec (ta_rate a mod 1000) 0) as [Z|Z]; [|reflexivity]. pose proof (Z.div_mod (ta_rate a) 1000). lia. }
  intros k key c. destruct (tone_at k t r size d key I T) as [N Y]. cbn [t_samples t_sample_rate t] in N, Y. fold c in N, Y. split; [exact N|]. intros M.
  destruct (Y M) as (data & G & _ & L & E). exists data. split; [exact G|]. split; [exact L|]. intros ch i Hc Hi. exact (proj2 (E ch i Hc Hi)).
Qed.
Theorem no_division a : ta_samples a = 0 \/ ta_rate a = 0 -> new_silence a = Err EZeroDiv.
Proof. intros [E|E]; unfold new_silence; rewrite E; [reflexivity|]. destruct (ta_samples a =? 0); reflexivity. Qed.
