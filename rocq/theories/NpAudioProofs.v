(** The arrays of numpy audio grains. *)
From Coq Require Import Lia ZifyBool ZifyNat.
From Verif Require Import Base BaseProofs GsfPrim GsfPrimProofs CogEnums VideoLayout LayoutSpec PatternSpec NpAudio NpAudioSpec.
Ltac Zify.zify_post_hook ::= Z.div_mod_to_equations.

(** ** Positions. *)
Lemma position_in a channels samples ch i : 0 <= ch < channels -> 0 <= i < samples -> 0 <= position a channels samples ch i < room a channels samples.
Proof.
  intros C I. destruct a; cbn [position room].
  - nia.
  - assert (A : 0 <= ch / 2) by lia. assert (B : ch / 2 + 1 <= (channels + 1) / 2) by lia. assert (M : 0 <= ch mod 2 < 2) by lia.
    set (q := ch / 2) in *. set (p := (channels + 1) / 2) in *. set (m := ch mod 2) in *. clearbody q p m. nia.
  - nia.
Qed.
Lemma mul_split n a b a' b' : 0 <= b < n -> 0 <= b' < n -> a * n + b = a' * n + b' -> a = a' /\ b = b'.
Proof.
  intros B B' E. assert (A : a = a').
  { rewrite (Z.div_unique (a * n + b) n a b) by lia. rewrite (Z.div_unique (a * n + b) n a' b') by lia. reflexivity. }
  subst. lia.
Qed.
Lemma position_inj a channels samples ch i ch' i' : 0 <= ch < channels -> 0 <= i < samples -> 0 <= ch' < channels -> 0 <= i' < samples ->
  position a channels samples ch i = position a channels samples ch' i' -> ch = ch' /\ i = i'.
Proof.
  intros C I C' I' E. destruct a; cbn [position] in E.
  - exact (mul_split samples ch i ch' i' I I' E).
  - assert (M : 0 <= ch mod 2 < 2) by lia. assert (M' : 0 <= ch' mod 2 < 2) by lia.
    destruct (mul_split 2 (ch / 2 * samples + i) (ch mod 2) (ch' / 2 * samples + i') (ch' mod 2) M M') as [A B]; [lia|].
    destruct (mul_split samples (ch / 2) i (ch' / 2) i' I I' A). split; [lia|assumption].
  - destruct (mul_split channels i ch i' ch' C C' E). auto.
Qed.
Lemma position_all a channels samples p : 0 <= p < room a channels samples -> (a = Pairs -> channels mod 2 = 0) -> 0 <= channels -> 0 <= samples ->
  exists ch i, 0 <= ch < channels /\ 0 <= i < samples /\ position a channels samples ch i = p.
Proof.
  intros P E C S. destruct a; cbn [room position] in *.
  - assert (0 < samples) by nia. exists (p / samples), (p mod samples). pose proof (Z.mod_pos_bound p samples ltac:(lia)). pose proof (Z.div_mod p samples ltac:(lia)).
    set (q := p / samples) in *. set (m := p mod samples) in *. clearbody q m. repeat split; try lia; nia.
  - specialize (E eq_refl). assert (0 < samples) by nia. set (h := p / 2). set (b := p mod 2).
    assert (HB : p = 2 * h + b /\ 0 <= b < 2) by (unfold h, b; lia). clearbody h b. set (c2 := (channels + 1) / 2) in *. assert (HC : channels = 2 * c2) by (unfold c2; lia). clearbody c2.
    exists (2 * (h / samples) + b), (h mod samples). pose proof (Z.mod_pos_bound h samples ltac:(lia)). pose proof (Z.div_mod h samples ltac:(lia)).
    set (q := h / samples) in *. set (m := h mod samples) in *. clearbody q m.
    replace ((2 * q + b) / 2) with q by (clear - HB; lia). replace ((2 * q + b) mod 2) with b by (clear - HB; lia). clear E.
    assert (0 <= q) by nia. assert (HQ : samples * q < samples * c2) by nia. apply Z.mul_lt_mono_pos_l in HQ; [|lia]. repeat split; try lia; nia.
  - assert (0 < channels) by nia. exists (p mod channels), (p / channels). pose proof (Z.mod_pos_bound p channels ltac:(lia)). pose proof (Z.div_mod p channels ltac:(lia)).
    set (q := p / channels) in *. set (m := p mod channels) in *. clearbody q m. repeat split; try lia; nia.
Qed.

(** ** One array. *)
Definition arr_view (a : arrangement) (samples channels n item ch : Z) : aview :=
  match a with
  | Planes => let (s, c) := np_slice n (ch * samples) ((ch + 1) * samples) in mkAv (s * item) item c item
  | Interleaved => let (s, _) := np_slice n ch (ch + samples) in mkAv (s * item) (item * channels) samples item
  | Pairs => let (s, _) := np_slice n (2 * (ch / 2) * samples + ch mod 2) (2 * (ch / 2 + 1) * samples) in mkAv (s * item) (item * 2) samples item
  end.
Lemma arr_places a samples channels n item ch : 0 <= samples -> 0 <= ch < channels -> room a channels samples <= n ->
  av_count (arr_view a samples channels n item ch) = samples /\ av_item (arr_view a samples channels n item ch) = item /\
  (0 < samples -> forall i, av_addr (arr_view a samples channels n item ch) i = position a channels samples ch i * item).
Proof.
  intros S C R. destruct a; cbn [arr_view np_slice room position] in *; unfold av_addr; cbn [av_count av_item av_start av_stride].
  - assert ((ch + 1) * samples <= n) by nia. split; [lia|]. split; [reflexivity|]. intros _ i. rewrite Z.min_l by nia. ring.
  - split; [reflexivity|]. split; [reflexivity|]. intros P i. rewrite Z.min_l; [ring|].
    assert (A : 0 <= ch / 2) by lia. assert (B : ch / 2 + 1 <= (channels + 1) / 2) by lia. assert (M : 0 <= ch mod 2 < 2) by lia.
    set (q := ch / 2) in *. set (p := (channels + 1) / 2) in *. set (m := ch mod 2) in *. clearbody q p m. nia.
  - split; [reflexivity|]. split; [reflexivity|]. intros P i. rewrite Z.min_l by nia. ring.
Qed.
Lemma inside_iff a samples channels n item ch i (buf : bytes) : 0 <= samples -> 0 <= ch < channels -> room a channels samples <= n -> 0 < item -> zlen buf = n * item ->
  av_inside buf (arr_view a samples channels n item ch) i = (0 <=? i) && (i <? samples).
Proof.
  intros S C R P L. destruct (arr_places a samples channels n item ch S C R) as (A & B & D). unfold av_inside. rewrite A, B.
  destruct ((0 <=? i) && (i <? samples)) eqn:E; [|reflexivity]. cbn [andb]. rewrite D by lia. pose proof (position_in a channels samples ch i C ltac:(lia)) as Q.
  set (p := position a channels samples ch i) in *. clearbody p. rewrite L. assert (p * item + item <= n * item) by nia. nia.
Qed.
Lemma nth_views fmt a samples channels n item : (forall ch, channel_view fmt samples channels n item ch = arr_view a samples channels n item ch) ->
  AUDIO_IS_PLANES fmt || AUDIO_IS_INTERLEAVED fmt || AUDIO_IS_PAIRS fmt = true -> forall ch, 0 <= ch ->
  nth_error (channel_views fmt samples channels n item) (Z.to_nat ch) = if ch <? channels then Some (arr_view a samples channels n item ch) else None.
Proof.
  intros V F ch P. unfold channel_views. rewrite F, nth_error_map. destruct (ch <? channels) eqn:E.
  - rewrite nth_error_nth' with (d := 0%nat) by (rewrite seq_length; lia). rewrite seq_nth by lia. cbn [option_map]. rewrite V. do 2 f_equal. lia.
  - destruct (nth_error (seq 0 (Z.to_nat channels)) (Z.to_nat ch)) eqn:N; [|reflexivity]. assert (Z.to_nat ch < List.length (seq 0 (Z.to_nat channels)))%nat by (apply nth_error_Some; congruence). rewrite seq_length in *. lia.
Qed.

(** A grain whose arrays are laid out as they should be on a buffer of [item] bytes each. *)
Definition laid_out (a : arrangement) (item : Z) (g : naudio) : Prop :=
  0 < item /\ 0 <= na_samples g /\ room a (na_channels g) (na_samples g) * item <= zlen (na_buffer g) /\
  exists n, zlen (na_buffer g) = n * item /\ forall ch, 0 <= ch ->
    nth_error (na_views g) (Z.to_nat ch) = if ch <? na_channels g then Some (arr_view a (na_samples g) (na_channels g) n item ch) else None.
Lemma get_spec a item g ch i : laid_out a item g -> na_get g ch i = if in_grain g ch i then Some (sample_bytes item (na_buffer g) (position a (na_channels g) (na_samples g) ch i)) else None.
Proof.
  intros (P & S & R & n & L & V). unfold na_get, in_grain. destruct (ch <? 0) eqn:N; [destruct (0 <=? ch) eqn:X; [lia|reflexivity]|].
  replace (0 <=? ch) with true by lia. rewrite V by lia. cbn [andb]. destruct (ch <? na_channels g) eqn:C; [|reflexivity].
  assert (RN : room a (na_channels g) (na_samples g) <= n) by (rewrite L in R; nia).
  unfold av_read. rewrite (inside_iff a (na_samples g) (na_channels g) n item ch i (na_buffer g) S ltac:(lia) RN P L). cbn [andb]. destruct ((0 <=? i) && (i <? na_samples g)) eqn:E; [|reflexivity].
  destruct (arr_places a (na_samples g) (na_channels g) n item ch S ltac:(lia) RN) as (_ & B & D). rewrite B, D by lia. reflexivity.
Qed.

(** ** Assignment. *)
Lemma sample_len item (buf : bytes) p : 0 <= p -> 0 <= item -> (p + 1) * item <= zlen buf -> zlen (sample_bytes item buf p) = item.
Proof. intros P I L. unfold sample_bytes. assert (0 <= p * item) by nia. rewrite zlen_zfirst, zlen_zskip by lia. lia. Qed.
Lemma splice_len item (buf b : bytes) p : 0 <= p -> 0 < item -> (p + 1) * item <= zlen buf -> zlen b = item ->
  zlen (zfirst (p * item) buf ++ b ++ zskip (p * item + item) buf) = zlen buf.
Proof. intros P I L B. assert (0 <= p * item) by nia. rewrite !zlen_app, zlen_zfirst, zlen_zskip by lia. lia. Qed.
Lemma splice_at item (buf b : bytes) p q : 0 <= p -> 0 <= q -> 0 < item -> (p + 1) * item <= zlen buf -> zlen b = item ->
  sample_bytes item (zfirst (p * item) buf ++ b ++ zskip (p * item + item) buf) q = if q =? p then b else sample_bytes item buf q.
Proof.
  intros P Q I L B. unfold sample_bytes. assert (0 <= p * item) by nia. assert (0 <= q * item) by nia. assert (LF : zlen (zfirst (p * item) buf) = p * item) by (rewrite zlen_zfirst; lia).
  destruct (Z.eqb_spec q p) as [->|N].
  - rewrite <- LF at 1. rewrite zskip_app, <- B. apply zfirst_app.
  - destruct (Z.lt_ge_cases q p) as [LT|GE].
    + assert ((q + 1) * item <= p * item) by nia. rewrite zskip_app_le by lia. rewrite zfirst_app_le by (rewrite zlen_zskip; lia).
      rewrite <- (zfirst_zskip (p * item) buf) at 2. rewrite zskip_app_le by lia. rewrite zfirst_app_le by (rewrite zlen_zskip; lia). reflexivity.
    + assert ((p + 1) * item <= q * item) by nia. rewrite zskip_app_ge by lia. rewrite zskip_app_ge by lia. rewrite zskip_zskip by lia. do 2 f_equal. rewrite LF, B. ring.
Qed.
Lemma put_spec a item g ch i b : laid_out a item g -> can_write g -> in_grain g ch i = true -> zlen b = item ->
  exists g', na_put g ch i b = Some g' /\ laid_out a item g' /\ can_write g' /\ na_samples g' = na_samples g /\ na_channels g' = na_channels g /\
    (na_copy g = None -> na_copy g' = None) /\ (forall c, na_copy g = Some c -> na_data g' = na_data g /\ exists c', na_copy g' = Some c') /\
    zlen (na_buffer g') = zlen (na_buffer g) /\
    forall q, 0 <= q -> sample_bytes item (na_buffer g') q = if q =? position a (na_channels g) (na_samples g) ch i then b else sample_bytes item (na_buffer g) q.
Proof.
  intros (P & S & R & n & L & V) CW IN B. unfold in_grain in IN. unfold na_put.
  replace (na_rw g || match na_copy g with Some _ => true | None => false end) with true by (destruct CW as [-> |CW]; [reflexivity|]; destruct (na_copy g); [|destruct (CW eq_refl)]; destruct (na_rw g); reflexivity).
  replace (ch <? 0) with false by lia. cbn [orb negb]. rewrite V by lia. replace (ch <? na_channels g) with true by lia.
  assert (RN : room a (na_channels g) (na_samples g) <= n) by (rewrite L in R; nia). pose proof (position_in a (na_channels g) (na_samples g) ch i ltac:(lia) ltac:(lia)) as Q.
  destruct (arr_places a (na_samples g) (na_channels g) n item ch S ltac:(lia) RN) as (_ & I & D).
  unfold av_write. rewrite (inside_iff a (na_samples g) (na_channels g) n item ch i (na_buffer g) S ltac:(lia) RN P L), I, D by lia. replace ((0 <=? i) && (i <? na_samples g) && (zlen b =? item)) with true by lia.
  set (p := position a (na_channels g) (na_samples g) ch i) in *. set (buf := zfirst (p * item) (na_buffer g) ++ b ++ zskip (p * item + item) (na_buffer g)).
  assert (PB : (p + 1) * item <= zlen (na_buffer g)) by (clear - Q RN L P; clearbody p; rewrite L; nia).
  assert (LB : zlen buf = zlen (na_buffer g)) by (apply splice_len; lia).
  assert (SB : forall q, 0 <= q -> sample_bytes item buf q = if q =? p then b else sample_bytes item (na_buffer g) q) by (intros q Q0; apply splice_at; lia).
  eexists. split; [reflexivity|]. unfold laid_out, can_write, na_buffer in *. destruct (na_copy g) as [c|]; cbn [na_samples na_channels na_copy na_data na_views];
    (split; [split; [exact P|split; [exact S|split; [lia|exists n; split; [lia|exact V]]]]|]); (split; [unfold can_write in *; cbn [na_rw na_copy]; destruct CW as [CW|CW]; [left; exact CW|right; discriminate || exact CW]|]); (split; [reflexivity|]); (split; [reflexivity|]).
  - split; [discriminate|]. split; [intros c0 _; split; [reflexivity|eexists; reflexivity]|]. split; [exact LB|exact SB].
  - split; [reflexivity|]. split; [discriminate|]. split; [exact LB|exact SB].
Qed.
