(** Numpy audio grains of each kind of format. *)
From Coq Require Import Lia ZifyBool ZifyNat.
From Verif Require Import Base BaseProofs JsonProofs GsfPrim GsfPrimProofs CogEnums VideoLayout LayoutSpec PatternTime PatternSpec Tone ToneProofs NpAudio NpAudioSpec NpAudioProofs.
Ltac Zify.zify_post_hook ::= Z.div_mod_to_equations.

Lemma room_size fmt a size channels samples : In (fmt, (a, size)) (plain_table ++ packed_table ++ low_table) ->
  size_for_audio_format fmt channels samples = room a channels samples * size.
Proof. intros I. repeat (destruct I as [I|I]; [injection I as <- <- <-; unfold size_for_audio_format; cbn [room]; cbn -[Z.mul Z.add Z.div]; ring|]). destruct I. Qed.

(** ** Samples that are array items. *)
Lemma new_plain w fmt a size samples channels d : In (fmt, (a, size)) plain_table -> 0 <= samples -> zlen d mod size = 0 -> room a channels samples * size <= zlen d ->
  exists g, na_new w fmt samples channels d = Ok g /\ na_data g = d /\ na_copy g = None /\ na_rw g = w /\ na_samples g = samples /\ na_channels g = channels /\ laid_out a size g.
Proof.
  intros I S M R. assert (P : 0 < size) by (repeat (destruct I as [I|I]; [injection I as <- <- <-; lia|]); destruct I).
  assert (N : na_new w fmt samples channels d = Ok (mkNa w fmt samples channels d None (channel_views fmt samples channels (zlen d / size) size))).
  { repeat (destruct I as [I|I]; [injection I as <- <- <-; unfold na_new; cbn [audio_itemsize AUDIO_IS_INT]; rewrite ?M; cbn -[Z.modulo zlen channel_views Z.div]; rewrite M; reflexivity|]). destruct I. }
  assert (V : forall n item ch, channel_view fmt samples channels n item ch = arr_view a samples channels n item ch) by (intros n item ch; repeat (destruct I as [I|I]; [injection I as <- <- <-; reflexivity|]); destruct I).
  assert (K : AUDIO_IS_PLANES fmt || AUDIO_IS_INTERLEAVED fmt || AUDIO_IS_PAIRS fmt = true) by (repeat (destruct I as [I|I]; [injection I as <- <- <-; reflexivity|]); destruct I).
  eexists. split; [exact N|]. cbn [na_data na_copy na_rw na_samples na_channels]. split; [reflexivity|]. split; [reflexivity|]. split; [reflexivity|]. split; [reflexivity|]. split; [reflexivity|].
  unfold laid_out, na_buffer. cbn [na_data na_copy na_samples na_channels na_views]. split; [exact P|]. split; [exact S|]. split; [exact R|]. exists (zlen d / size). split.
  - clear - M P. pose proof (Z.div_mod (zlen d) size ltac:(lia)). rewrite M in H. rewrite H at 1. ring.
  - intros ch C. exact (nth_views fmt a samples channels (zlen d / size) size (V _ _) K ch C).
Qed.

(** ** Assignments one after the other. *)
Lemma assigned_app ws ch i b : assigned (ws ++ [(ch, i, b)]) ch i = match assigned ws ch i with Some x => Some x | None => Some b end.
Proof.
  unfold assigned. induction ws as [|w ws IH]; cbn [app find].
  - cbn [fst snd]. rewrite !Z.eqb_refl. reflexivity.
  - destruct ((fst (fst w) =? ch) && (snd (fst w) =? i)); [reflexivity|exact IH].
Qed.
Lemma assigned_other ws ch i b ch' i' : ch <> ch' \/ i <> i' -> assigned (ws ++ [(ch, i, b)]) ch' i' = assigned ws ch' i'.
Proof.
  intros N. unfold assigned. induction ws as [|w ws IH]; cbn [app find].
  - cbn [fst snd]. replace ((ch =? ch') && (i =? i')) with false by lia. reflexivity.
  - destruct ((fst (fst w) =? ch') && (snd (fst w) =? i')); [reflexivity|exact IH].
Qed.
Lemma puts_spec a item ws : forall g, laid_out a item g -> can_write g -> Forall (fun w => in_grain g (fst (fst w)) (snd (fst w)) = true /\ zlen (snd w) = item) ws ->
  exists g', na_puts g ws = Some g' /\ laid_out a item g' /\ na_samples g' = na_samples g /\ na_channels g' = na_channels g /\
    (na_copy g = None -> na_copy g' = None) /\ (forall c, na_copy g = Some c -> na_data g' = na_data g) /\ zlen (na_buffer g') = zlen (na_buffer g) /\
    (forall ch i, in_grain g ch i = true -> na_get g' ch i = match assigned (rev ws) ch i with Some b => Some b | None => na_get g ch i end) /\
    (forall q, 0 <= q -> (forall ch i b, In (ch, i, b) ws -> q <> position a (na_channels g) (na_samples g) ch i) -> sample_bytes item (na_buffer g') q = sample_bytes item (na_buffer g) q).
Proof.
  induction ws as [|[[ch i] b] ws IH]; intros g L W F.
  - exists g. cbn [na_puts rev]. split; [reflexivity|]. split; [exact L|]. split; [reflexivity|]. split; [reflexivity|]. split; [auto|]. split; [reflexivity|]. split; [reflexivity|]. split; [reflexivity|reflexivity].
  - destruct (Forall_inv F) as [I B]. cbn [fst snd] in I, B. destruct (put_spec a item g ch i b L W I B) as (g1 & E & L1 & W1 & S1 & C1 & K1 & K2 & Z1 & Q1).
    cbn [na_puts]. rewrite E. destruct (IH g1 L1 W1) as (g' & E' & L' & S' & C' & K1' & K2' & Z' & G' & Q').
    { apply Forall_inv_tail in F. apply Forall_forall. intros w IW. rewrite Forall_forall in F. destruct (F w IW) as [X Y]. split; [|exact Y]. unfold in_grain in *. rewrite S1, C1. exact X. }
    exists g'. split; [exact E'|]. split; [exact L'|]. split; [congruence|]. split; [congruence|]. split; [auto|].
    split; [intros c K; destruct (K2 c K) as (D & c' & X); rewrite (K2' c' X); exact D|]. split; [congruence|].
    pose proof (fun c j => get_spec a item g1 c j L1) as G1. pose proof (fun c j => get_spec a item g c j L) as G0.
    split.
    + intros c j IG. assert (IG1 : in_grain g1 c j = true) by (unfold in_grain in *; rewrite S1, C1; exact IG). rewrite (G' c j IG1). cbn [rev].
      assert (PP : 0 <= position a (na_channels g) (na_samples g) c j) by (apply position_in; unfold in_grain in IG; lia).
      destruct (Z.eq_dec ch c) as [<-|N]; [destruct (Z.eq_dec i j) as [<-|N]|].
      * rewrite assigned_app. destruct (assigned (rev ws) ch i); [reflexivity|]. rewrite G1, IG1, S1, C1, Q1 by exact PP. rewrite Z.eqb_refl. reflexivity.
      * rewrite assigned_other by (right; exact N). destruct (assigned (rev ws) ch j); [reflexivity|]. rewrite G1, IG1, S1, C1, Q1 by exact PP. rewrite G0, IG.
        destruct (Z.eqb_spec (position a (na_channels g) (na_samples g) ch j) (position a (na_channels g) (na_samples g) ch i)) as [X|X]; [|reflexivity].
        apply position_inj in X; unfold in_grain in *; lia.
      * rewrite assigned_other by (left; exact N). destruct (assigned (rev ws) c j); [reflexivity|]. rewrite G1, IG1, S1, C1, Q1 by exact PP. rewrite G0, IG.
        destruct (Z.eqb_spec (position a (na_channels g) (na_samples g) c j) (position a (na_channels g) (na_samples g) ch i)) as [X|X]; [|reflexivity].
        apply position_inj in X; unfold in_grain in *; lia.
    + intros q Q O. rewrite Q' by (exact Q || (intros c j x IX; rewrite C1, S1; apply (O c j x); right; exact IX)). rewrite Q1 by exact Q.
      destruct (Z.eqb_spec q (position a (na_channels g) (na_samples g) ch i)) as [X|X]; [destruct (O ch i b (or_introl eq_refl) X)|reflexivity].
Qed.

Theorem plain_arrays w fmt a size samples channels d : In (fmt, (a, size)) plain_table -> 0 <= samples -> 0 <= channels -> zlen d = size_for_audio_format fmt channels samples ->
  exists g, na_new w fmt samples channels d = Ok g /\ na_data g = d /\ na_samples g = samples /\ na_channels g = channels /\
    (forall ch i, na_get g ch i = if in_grain g ch i then Some (sample_bytes size d (position a channels samples ch i)) else None) /\
    (forall ch i, in_grain g ch i = true -> zlen (sample_bytes size d (position a channels samples ch i)) = size) /\
    (w = false -> forall ch i b, na_put g ch i b = None) /\
    forall ws, w = true -> Forall (fun x => in_grain g (fst (fst x)) (snd (fst x)) = true /\ zlen (snd x) = size) ws ->
    exists g', na_puts g ws = Some g' /\ zlen (na_data g') = zlen d /\
      (forall ch i, in_grain g ch i = true -> na_get g' ch i = Some (sample_bytes size (na_data g') (position a channels samples ch i)) /\
        sample_bytes size (na_data g') (position a channels samples ch i) = match assigned (rev ws) ch i with Some b => b | None => sample_bytes size d (position a channels samples ch i) end) /\
      (forall q, 0 <= q -> (forall ch i b, In (ch, i, b) ws -> q <> position a channels samples ch i) -> sample_bytes size (na_data g') q = sample_bytes size d q).
Proof.
  intros I S C L. rewrite (room_size fmt a) with (size := size) in L by (apply in_or_app; left; exact I).
  assert (M : zlen d mod size = 0) by (rewrite L; apply Z.mod_mul; repeat (destruct I as [I|I]; [injection I as <- <- <-; lia|]); destruct I).
  destruct (new_plain w fmt a size samples channels d I S M ltac:(lia)) as (g & N & D & K & RW & GS & GC & LO). exists g. split; [exact N|]. split; [exact D|]. split; [exact GS|]. split; [exact GC|].
  assert (B : na_buffer g = d) by (unfold na_buffer; rewrite K; exact D).
  assert (G : forall ch i, na_get g ch i = if in_grain g ch i then Some (sample_bytes size d (position a channels samples ch i)) else None) by (intros ch i; rewrite (get_spec a size g ch i LO), B, GS, GC; reflexivity).
  split; [exact G|]. split; [|split].
  - intros ch i IG. unfold in_grain in IG. rewrite GS, GC in IG. pose proof (position_in a channels samples ch i ltac:(lia) ltac:(lia)) as P. set (p := position _ _ _ _ _) in *. clearbody p.
    destruct LO as (SZ & _). apply sample_len; [lia|lia|]. rewrite L. nia.
  - intros -> ch i b. unfold na_put. rewrite RW, K. cbn [orb negb]. rewrite Bool.orb_true_r. reflexivity.
  - intros ws -> F. destruct (puts_spec a size ws g LO (or_introl RW) F) as (g' & E & L' & S' & C' & K' & _ & Z' & G' & Q'). exists g'. specialize (K' K).
    assert (B' : na_buffer g' = na_data g') by (unfold na_buffer; rewrite K'; reflexivity). rewrite B, B' in *. rewrite GS, GC in *.
    split; [exact E|]. split; [exact Z'|]. split; [|exact Q']. intros ch i IG. pose proof (get_spec a size g' ch i L') as GG. rewrite B', S', C' in GG.
    assert (IG' : in_grain g' ch i = true) by (unfold in_grain in *; rewrite S', C'; rewrite GS, GC in IG; exact IG). rewrite IG' in GG. split; [exact GG|].
    rewrite (G' ch i IG) in GG. rewrite G, IG in GG. destruct (assigned (rev ws) ch i); congruence.
Qed.

(** ** Samples of three bytes: on a copy. *)
Lemma widen_len n : forall d, List.length d = (3 * n)%nat -> List.length (widen d) = (4 * n)%nat.
Proof.
  induction n as [|n IH]; intros d L; [destruct d; [reflexivity|discriminate]|].
  destruct d as [|b0 [|b1 [|b2 d]]]; cbn [List.length] in L; try lia. cbn [widen List.length]. rewrite IH by lia. lia.
Qed.
Lemma widen_at n : forall d p, List.length d = (3 * n)%nat -> 0 <= p < Z.of_nat n -> sample_bytes 4 (widen d) p = 0 :: sample_bytes 3 d p.
Proof.
  unfold sample_bytes. induction n as [|n IH]; intros d p L P; [lia|].
  destruct d as [|b0 [|b1 [|b2 d]]]; cbn [List.length] in L; try lia. cbn [widen]. destruct (Z.eq_dec p 0) as [->|N].
  - change (0 * 4) with 0. change (0 * 3) with 0. rewrite !zskip_skipn, !zfirst_firstn by lia. reflexivity.
  - rewrite (zskip_cons (p * 4)), (zskip_cons (p * 4 - 1)), (zskip_cons (p * 4 - 1 - 1)), (zskip_cons (p * 4 - 1 - 1 - 1)) by lia.
    rewrite (zskip_cons (p * 3)), (zskip_cons (p * 3 - 1)), (zskip_cons (p * 3 - 1 - 1)) by lia.
    replace (p * 4 - 1 - 1 - 1 - 1) with ((p - 1) * 4) by lia. replace (p * 3 - 1 - 1 - 1) with ((p - 1) * 3) by lia. apply IH; lia.
Qed.
Lemma new_packed w fmt a samples channels d : In (fmt, (a, 3)) packed_table -> 0 <= samples -> zlen d mod 3 = 0 -> room a channels samples * 3 <= zlen d ->
  exists g, na_new w fmt samples channels d = Ok g /\ na_data g = d /\ na_copy g = Some (widen d) /\ na_samples g = samples /\ na_channels g = channels /\ laid_out a 4 g.
Proof.
  intros I S M R.
  assert (N : na_new w fmt samples channels d = Ok (mkNa w fmt samples channels d (Some (widen d)) (channel_views fmt samples channels (zlen d / 3) 4))).
  { repeat (destruct I as [I|I]; [injection I as <- <-; unfold na_new; cbn -[Z.modulo zlen channel_views Z.div]; rewrite Z.mod_1_r, M; reflexivity|]). destruct I. }
  assert (V : forall n item ch, channel_view fmt samples channels n item ch = arr_view a samples channels n item ch) by (intros n item ch; repeat (destruct I as [I|I]; [injection I as <- <-; reflexivity|]); destruct I).
  assert (K : AUDIO_IS_PLANES fmt || AUDIO_IS_INTERLEAVED fmt || AUDIO_IS_PAIRS fmt = true) by (repeat (destruct I as [I|I]; [injection I as <- <-; reflexivity|]); destruct I).
  assert (WL : zlen (widen d) = zlen d / 3 * 4) by (unfold zlen; rewrite (widen_len (Z.to_nat (zlen d / 3))); unfold zlen in *; lia).
  eexists. split; [exact N|]. cbn [na_data na_copy na_samples na_channels]. split; [reflexivity|]. split; [reflexivity|]. split; [reflexivity|]. split; [reflexivity|].
  unfold laid_out, na_buffer. cbn [na_data na_copy na_samples na_channels na_views]. split; [lia|]. split; [exact S|]. split; [rewrite WL; lia|]. exists (zlen d / 3). split; [exact WL|].
  intros ch C. exact (nth_views fmt a samples channels (zlen d / 3) 4 (V _ _) K ch C).
Qed.
Lemma le_bound b0 b1 b2 : byte_ok b0 -> byte_ok b1 -> byte_ok b2 -> 0 <= little_endian [b0; b1; b2] < 2 ^ 24.
Proof. unfold byte_ok. cbn [little_endian]. intros. lia. Qed.
Lemma signed_wide b : List.length b = 3%nat -> Forall byte_ok b -> signed 4 (0 :: b) = 256 * signed 3 b.
Proof.
  intros L F. destruct b as [|b0 [|b1 [|b2 [|]]]]; try discriminate. inversion F as [|? ? F0 F']; inversion F' as [|? ? F1 F'']; inversion F'' as [|? ? F2 _]; subst.
  unfold signed. pose proof (le_bound b0 b1 b2 F0 F1 F2) as X. cbn [little_endian] in *. change (2 ^ (8 * 4 - 1)) with (256 * 2 ^ (8 * 3 - 1)). change (2 ^ (8 * 4)) with (256 * 2 ^ (8 * 3)).
  destruct (Z.ltb_spec (b0 + 256 * (b1 + 256 * (b2 + 256 * 0))) (2 ^ (8 * 3 - 1))) as [Y|Y]; [replace (_ <? _) with true by lia|replace (_ <? _) with false by lia]; lia.
Qed.
Theorem packed_arrays w fmt a samples channels d : In (fmt, (a, 3)) packed_table -> 0 <= samples -> 0 <= channels -> zlen d = size_for_audio_format fmt channels samples -> bytes_ok d ->
  exists g, na_new w fmt samples channels d = Ok g /\ na_data g = d /\ na_samples g = samples /\ na_channels g = channels /\
    (forall ch i, na_get g ch i = if in_grain g ch i then Some (0 :: sample_bytes 3 d (position a channels samples ch i)) else None) /\
    (forall ch i, in_grain g ch i = true -> signed 4 (0 :: sample_bytes 3 d (position a channels samples ch i)) = 256 * signed 3 (sample_bytes 3 d (position a channels samples ch i))) /\
    forall ws, Forall (fun x => in_grain g (fst (fst x)) (snd (fst x)) = true /\ zlen (snd x) = 4) ws ->
    exists g', na_puts g ws = Some g' /\ na_data g' = d /\
      (forall ch i, in_grain g ch i = true -> na_get g' ch i = match assigned (rev ws) ch i with Some b => Some b | None => na_get g ch i end).
Proof.
  intros I S C L OK. rewrite (room_size fmt a) with (size := 3) in L by (apply in_or_app; right; apply in_or_app; left; exact I).
  assert (M : zlen d mod 3 = 0) by (rewrite L; apply Z.mod_mul; lia).
  destruct (new_packed w fmt a samples channels d I S M ltac:(lia)) as (g & N & D & K & GS & GC & LO). exists g. split; [exact N|]. split; [exact D|]. split; [exact GS|]. split; [exact GC|].
  assert (B : na_buffer g = widen d) by (unfold na_buffer; rewrite K; reflexivity).
  assert (PB : forall ch i, in_grain g ch i = true -> 0 <= position a channels samples ch i < room a channels samples) by (intros ch i IG; unfold in_grain in IG; rewrite GS, GC in IG; apply position_in; lia).
  split; [|split].
  - intros ch i. rewrite (get_spec a 4 g ch i LO), B, GS, GC. destruct (in_grain g ch i) eqn:IG; [|reflexivity]. specialize (PB ch i IG). f_equal. unfold zlen in L. apply (widen_at (Z.to_nat (room a channels samples))); lia.
  - intros ch i IG. specialize (PB ch i IG). set (p := position _ _ _ _ _) in *. clearbody p. apply signed_wide.
    + pose proof (sample_len 3 d p ltac:(lia) ltac:(lia) ltac:(lia)) as X. unfold zlen in X. lia.
    + unfold sample_bytes. apply bytes_ok_zfirst, bytes_ok_zskip. exact OK.
  - intros ws F. destruct (puts_spec a 4 ws g LO ltac:(right; rewrite K; discriminate) F) as (g' & E & _ & _ & _ & _ & K' & _ & G' & _). exists g'. split; [exact E|]. split; [rewrite (K' _ K); exact D|exact G'].
Qed.

(** ** Samples of 24 bits in four bytes: shifted in place. *)
Lemma shift_one b0 b1 b2 b3 : byte_ok b0 -> byte_ok b1 -> byte_ok b2 -> byte_ok b3 -> enc_uint 4 (Z.shiftl (le_dec [b0; b1; b2; b3]) 8 mod 2 ^ 32) = [0; b0; b1; b2].
Proof.
  unfold byte_ok. intros B0 B1 B2 B3. rewrite Z.shiftl_mul_pow2 by lia. cbn [le_dec].
  replace ((b0 + 256 * (b1 + 256 * (b2 + 256 * (b3 + 256 * 0)))) * 2 ^ 8) with (le_dec [0; b0; b1; b2] + b3 * 2 ^ 32) by (cbn [le_dec]; lia).
  rewrite Z.mod_add by lia. rewrite Z.mod_small by (cbn [le_dec]; lia). change 4%nat with (List.length [0; b0; b1; b2]). apply enc_le_dec.
  constructor; [unfold byte_ok; lia|]. constructor; [exact B0|]. constructor; [exact B1|]. constructor; [exact B2|constructor].
Qed.
Lemma shift_up_len n : forall d, List.length d = (4 * n)%nat -> List.length (shift_up d) = (4 * n)%nat.
Proof.
  induction n as [|n IH]; intros d L; [destruct d; [reflexivity|discriminate]|].
  destruct d as [|b0 [|b1 [|b2 [|b3 d]]]]; cbn [List.length] in L; try lia. cbn [shift_up]. rewrite app_length, IH by lia. pose proof (enc_uint_len 4 (Z.shiftl (le_dec [b0; b1; b2; b3]) 8 mod 2 ^ 32)) as X. unfold zlen in X. lia.
Qed.
Lemma shift_up_at n : forall d p, List.length d = (4 * n)%nat -> bytes_ok d -> 0 <= p < Z.of_nat n -> sample_bytes 4 (shift_up d) p = 0 :: zfirst 3 (sample_bytes 4 d p).
Proof.
  unfold sample_bytes. induction n as [|n IH]; intros d p L F P; [lia|].
  destruct d as [|b0 [|b1 [|b2 [|b3 d]]]]; cbn [List.length] in L; try lia. inversion F as [|? ? F0 F']; inversion F' as [|? ? F1 F'']; inversion F'' as [|? ? F2 F3']; inversion F3' as [|? ? F3 FD]; subst.
  cbn [shift_up]. rewrite shift_one by assumption. cbn [app]. destruct (Z.eq_dec p 0) as [->|N].
  - change (0 * 4) with 0. rewrite !zskip_skipn, !zfirst_firstn by lia. reflexivity.
  - rewrite !(zskip_cons (p * 4)), !(zskip_cons (p * 4 - 1)), !(zskip_cons (p * 4 - 1 - 1)), !(zskip_cons (p * 4 - 1 - 1 - 1)) by lia.
    replace (p * 4 - 1 - 1 - 1 - 1) with ((p - 1) * 4) by lia. apply IH; [lia|exact FD|lia].
Qed.
Theorem low_arrays samples channels d : 0 <= samples -> 0 <= channels -> zlen d = size_for_audio_format 0x4 channels samples -> bytes_ok d ->
  na_new false 0x4 samples channels d = Err EValue /\
  exists g, na_new true 0x4 samples channels d = Ok g /\ zlen (na_data g) = zlen d /\ na_samples g = samples /\ na_channels g = channels /\
    (forall ch i, na_get g ch i = if in_grain g ch i then Some (sample_bytes 4 (na_data g) (position Planes channels samples ch i)) else None) /\
    (forall ch i, in_grain g ch i = true -> sample_bytes 4 (na_data g) (position Planes channels samples ch i) = 0 :: zfirst 3 (sample_bytes 4 d (position Planes channels samples ch i)) /\
      signed 4 (sample_bytes 4 (na_data g) (position Planes channels samples ch i)) = 256 * signed 3 (zfirst 3 (sample_bytes 4 d (position Planes channels samples ch i)))).
Proof.
  intros S C L F. rewrite (room_size 0x4 Planes) with (size := 4) in L by (apply in_or_app; right; apply in_or_app; right; left; reflexivity). cbn [room] in L.
  assert (M : zlen d mod 4 = 0) by (rewrite L; apply Z.mod_mul; lia).
  assert (N : forall w, na_new w 0x4 samples channels d = if negb w then Err EValue else Ok (mkNa w 0x4 samples channels (shift_up d) None (channel_views 0x4 samples channels (zlen d / 4) 4))).
  { intros w. unfold na_new. cbn -[Z.modulo zlen channel_views Z.div shift_up]. rewrite Z.mod_1_r, M. reflexivity. }
  split; [rewrite N; reflexivity|]. eexists. split; [rewrite N; reflexivity|]. cbn [na_data]. set (n := channels * samples) in *. assert (N0 : 0 <= n) by (unfold n; nia).
  assert (SL : zlen (shift_up d) = zlen d) by (unfold zlen in *; rewrite (shift_up_len (Z.to_nat n)) by lia; lia).
  split; [exact SL|]. split; [reflexivity|]. split; [reflexivity|]. set (g := mkNa _ _ _ _ _ _ _).
  assert (LO : laid_out Planes 4 g).
  { unfold laid_out, na_buffer, g. cbn [na_data na_copy na_samples na_channels na_views room]. fold n. split; [lia|]. split; [exact S|]. split; [lia|]. exists (zlen d / 4). split; [lia|].
    intros ch CH. exact (nth_views 0x4 Planes samples channels (zlen d / 4) 4 (fun _ => eq_refl) eq_refl ch CH). }
  split.
  - intros ch i. exact (get_spec Planes 4 g ch i LO).
  - intros ch i IG. unfold in_grain, g in IG. cbn [na_samples na_channels] in IG. pose proof (position_in Planes channels samples ch i ltac:(lia) ltac:(lia)) as P. cbn [room] in P. fold n in P.
    set (p := position Planes channels samples ch i) in *. clearbody p.
    assert (E : sample_bytes 4 (shift_up d) p = 0 :: zfirst 3 (sample_bytes 4 d p)) by (unfold zlen in L; apply (shift_up_at (Z.to_nat n)); [lia|exact F|lia]).
    split; [exact E|]. rewrite E. pose proof (sample_len 4 d p ltac:(lia) ltac:(lia) ltac:(lia)) as X. apply signed_wide.
    + rewrite zfirst_firstn, firstn_length. unfold zlen in X. lia.
    + apply bytes_ok_zfirst. unfold sample_bytes. apply bytes_ok_zfirst, bytes_ok_zskip. exact F.
Qed.

(** ** Nothing is shared between the channels, and nothing is left out. *)
Theorem channels_apart a channels samples : 0 <= samples -> 0 <= channels ->
  (forall ch i ch' i', 0 <= ch < channels -> 0 <= i < samples -> 0 <= ch' < channels -> 0 <= i' < samples ->
    position a channels samples ch i = position a channels samples ch' i' -> ch = ch' /\ i = i') /\
  ((a = Pairs -> channels mod 2 = 0) -> forall p, 0 <= p < room a channels samples -> exists ch i, 0 <= ch < channels /\ 0 <= i < samples /\ position a channels samples ch i = p).
Proof.
  intros S C. split; [intros ch i ch' i'; apply position_inj|]. intros E p P. exact (position_all a channels samples p P E C S).
Qed.

(** ** Copies, where the payload is not shifted. *)
Theorem plain_copies w fmt a size samples channels d g : In (fmt, (a, size)) (plain_table ++ packed_table) -> na_new w fmt samples channels d = Ok g ->
  na_copied g = Ok (g, g) /\ exists g', na_deepcopied g = Ok g' /\ na_data g' = na_data g /\ can_write g' /\ forall ch i, na_get g' ch i = na_get g ch i.
Proof.
  intros I N.
  assert (E : (exists c v, (forall w', na_new w' fmt samples channels d = Ok (mkNa w' fmt samples channels d c v)))).
  { unfold na_new in *. repeat (destruct I as [I|I]; [injection I as <- <- <-; cbn -[Z.modulo zlen channel_views Z.div widen] in *; rewrite ?Z.mod_1_r in *; cbn -[Z.modulo zlen channel_views Z.div widen] in *;
      (destruct (_ =? 0) in *; [|discriminate]); eexists; eexists; intros w'; reflexivity|]). destruct I. }
  destruct E as (c & v & E). rewrite E in N. apply Ok_eq in N. subst g. unfold na_copied, na_deepcopied. cbn [na_rw na_fmt na_samples na_channels na_data na_copy na_views]. rewrite !E. cbn [rbind na_data]. split; [reflexivity|].
  eexists. split; [reflexivity|]. split; [reflexivity|]. split; [left; reflexivity|reflexivity].
Qed.

(** ** What is refused. *)
Theorem formats_refused w fmt samples channels d : In fmt audio_formats ->
  (na_new w fmt samples channels d = Err EUnsupported <-> In fmt [0xfffffffe; 0xffffffff]) /\
  (~ In fmt [0xfffffffe; 0xffffffff] -> forall a size, In (fmt, (a, size)) (plain_table ++ packed_table) -> (na_new w fmt samples channels d = Err EValue <-> zlen d mod size <> 0)).
Proof.
  intros I. split.
  - unfold na_new. repeat (destruct I as [<-|I]; [cbn -[Z.modulo zlen channel_views Z.div widen shift_up];
      first [split; [intros _; (left; reflexivity) || (right; left; reflexivity)|reflexivity]
            |split; [|intros [X|[X|[]]]; discriminate X]; repeat (destruct (_ =? 0); cbn [negb]); try discriminate; destruct w; discriminate]|]). destruct I.
  - intros _ a size T. clear I. unfold na_new. repeat (destruct T as [T|T]; [injection T as <- <- <-; cbn -[Z.modulo zlen channel_views Z.div widen]; rewrite ?Z.mod_1_r; cbn -[Z.modulo zlen channel_views Z.div widen];
      match goal with |- context [?x =? 0] => destruct (Z.eqb_spec x 0) as [X|X] end; cbn [negb]; (split; [discriminate || (intros _; exact X)|intros Y; (destruct (Y X)) || reflexivity])|]). destruct T.
Qed.

(** ** The arrays of a tone. *)
Lemma wide_wave x b : little_endian b = x mod 2 ^ (8 * 3) -> little_endian (0 :: b) = (256 * x) mod 2 ^ (8 * 4).
Proof. intros E. cbn [little_endian]. rewrite E. change (2 ^ (8 * 4)) with (256 * 2 ^ (8 * 3)). rewrite Z.mul_mod_distr_l by lia. lia. Qed.
Theorem tone_arrays t a size d k key w : In (t_format t, (a, size, d)) tone_table -> tone_ok t a d ->
  let c := count_at k key (t_sample_rate t, 1) in c mod t_samples t = 0 ->
  exists p data g, period t p /\ snd (tone_get k t [] key) = Ok (Some (mkTg (grid k (t_sample_rate t, 1) c) (tone_rate t) data)) /\
    na_new w (t_format t) (t_samples t) (t_channels t) data = Ok g /\ na_data g = data /\
    forall ch i, 0 <= ch < t_channels t -> 0 <= i < t_samples t ->
      exists b, na_get g ch i = Some b /\ zlen b = item_bytes size d /\ little_endian b = (stretched d * t_wave t d ((c + i) mod p)) mod 2 ^ (8 * item_bytes size d).
Proof.
  intros I K c M. destruct (tone_seamless t a size d I K) as (p & P & T). destruct (T k key) as [_ G]. fold c in G. destruct (G M) as (data & E & _ & Z & V). exists p, data.
  destruct K as (S & C & _).
  assert (X : In (t_format t, (a, size)) plain_table /\ d <> D24 \/ In (t_format t, (a, 3)) packed_table /\ size = 3 /\ d = D24).
  { clear - I. repeat (destruct I as [I|I]; [injection I as <- <- <- <-; first [left; split; [cbn [plain_table In]; tauto|discriminate]|right; split; [cbn [packed_table In]; tauto|split; reflexivity]]|]). destruct I. }
  destruct X as [[X D]|(X & -> & ->)].
  - destruct (plain_arrays w (t_format t) a size (t_samples t) (t_channels t) data X ltac:(lia) ltac:(lia) Z) as (g & N & ND & GS & GC & GG & _). exists g. split; [exact P|]. split; [exact E|]. split; [exact N|]. split; [exact ND|].
    intros ch i CH II. destruct (V ch i CH II) as [LB LE]. eexists. split; [rewrite GG; unfold in_grain; rewrite GS, GC; replace (_ && _) with true by lia; reflexivity|].
    replace (item_bytes size d) with size by (destruct d; reflexivity || destruct (D eq_refl)). replace (stretched d) with 1 by (destruct d; reflexivity || destruct (D eq_refl)). rewrite Z.mul_1_l. split; [exact LB|exact LE].
  - assert (R : room a (t_channels t) (t_samples t) * 3 = zlen data) by (rewrite Z, (room_size _ a) with (size := 3) by (apply in_or_app; right; apply in_or_app; left; exact X); reflexivity).
    destruct (new_packed w (t_format t) a (t_samples t) (t_channels t) data X ltac:(lia)) as (g & N & ND & NC & NS & NCH & LO); [rewrite <- R; apply Z.mod_mul; lia|lia|].
    exists g. split; [exact P|]. split; [exact E|]. split; [exact N|]. split; [exact ND|]. intros ch i CH II. destruct (V ch i CH II) as [LB LE].
    pose proof (position_in a (t_channels t) (t_samples t) ch i CH II) as PB. set (q := position _ _ _ _ _) in *.
    eexists. split.
    + rewrite (get_spec a 4 g ch i LO). unfold in_grain, na_buffer. rewrite NC, NS, NCH. replace (_ && _) with true by lia. fold q. clearbody q. rewrite (widen_at (Z.to_nat (room a (t_channels t) (t_samples t)))) by (unfold zlen in R; lia). reflexivity.
    + cbn [item_bytes stretched]. split; [rewrite zlen_cons, LB; reflexivity|]. exact (wide_wave _ _ LE).
Qed.
