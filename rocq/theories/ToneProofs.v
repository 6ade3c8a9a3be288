(** Proofs about the tone generator. *)
From Verif Require Import Base BaseProofs CogEnums VideoLayout LayoutSpec LayoutProofs GsfPrim GsfPrimProofs NpView NpViewProofs
  PatternTime Tone PatternSpec PatternTimeProofs.
From Coq Require Import Lia ZifyBool ZifyNat.
Ltac Zify.zify_post_hook ::= Z.div_mod_to_equations.

(** The waveform. *)
Lemma looplen_pos t : 0 < t_sample_rate t -> 0 <= t_frequency t -> 0 < looplen t.
Proof.
  intros HR Hf. unfold looplen. destruct (Z.eqb_spec (t_frequency t) 0) as [E|E]; [lia|].
  destruct (Z.eqb_spec (t_sample_rate t mod t_frequency t) 0) as [D|D]; [|exact HR].
  apply Z.mod_divide in D; [|exact E]. destruct D as [q D]. rewrite D, Z.div_mul by exact E. nia.
Qed.

Lemma looplen_period t : 0 < t_sample_rate t -> 0 <= t_frequency t -> period t (looplen t).
Proof.
  intros HR Hf. split; [now apply looplen_pos|]. unfold looplen.
  destruct (Z.eqb_spec (t_frequency t) 0) as [E|E]; [rewrite E; apply Z.mod_0_l; lia|].
  destruct (Z.eqb_spec (t_sample_rate t mod t_frequency t) 0) as [D|D].
  - apply Z.mod_divide in D; [|exact E]. destruct D as [q D].
    replace (t_sample_rate t / t_frequency t) with q by (rewrite D; symmetry; now apply Z.div_mul).
    rewrite <- D. apply Z.mod_same. lia.
  - rewrite Z.mul_comm. apply Z.mod_mul. lia.
Qed.

(** Equal positions in the period are equal phases. *)
Lemma same_phase t p n : period t p -> 0 < t_sample_rate t -> ((n mod p) * t_frequency t) mod t_sample_rate t = (n * t_frequency t) mod t_sample_rate t.
Proof.
  intros [Hp HP] HR. apply Z.mod_divide in HP; [|lia]. destruct HP as [q HP].
  rewrite (Z.div_mod n p) at 2 by lia.
  replace ((p * (n / p) + n mod p) * t_frequency t) with (n mod p * t_frequency t + n / p * (p * t_frequency t)) by ring.
  rewrite HP. replace (n / p * (q * t_sample_rate t)) with (n / p * q * t_sample_rate t) by ring.
  rewrite Z.mod_add by lia. reflexivity.
Qed.

Lemma zrange_len n : 0 <= n -> length (zrange n) = Z.to_nat n.
Proof. intros _. unfold zrange. now rewrite map_length, seq_length. Qed.

Lemma nth_zrange n i d : 0 <= i < n -> nth (Z.to_nat i) (zrange n) d = i.
Proof.
  intros H. unfold zrange. rewrite nth_indep with (d' := Z.of_nat 0) by (rewrite map_length, seq_length; lia).
  rewrite map_nth, seq_nth by lia. lia.
Qed.

Lemma nth_map_zrange (f : Z -> Z) n i d : 0 <= i < n -> nth (Z.to_nat i) (map f (zrange n)) d = f i.
Proof.
  intros H. rewrite nth_indep with (d' := f 0) by (rewrite map_length, zrange_len; lia).
  rewrite map_nth. now rewrite nth_zrange.
Qed.

(** Lists of equal pieces. *)
Lemma nth_concat {A} (d : A) m : forall ls a b, (forall l, In l ls -> length l = m) -> (a < length ls)%nat -> (b < m)%nat ->
  nth (a * m + b) (concat ls) d = nth b (nth a ls []) d.
Proof.
  induction ls as [|l ls IH]; intros a b H Ha Hb; [cbn [length] in Ha; lia|].
  assert (Hl := H l (or_introl eq_refl)). cbn [concat]. destruct a as [|a].
  - cbn [Nat.mul Nat.add nth]. apply app_nth1. lia.
  - rewrite app_nth2 by (cbn [Nat.mul]; lia). cbn [nth].
    replace (S a * m + b - length l)%nat with (a * m + b)%nat by (cbn [Nat.mul]; lia).
    apply IH; [intros x Hx; apply H; now right|cbn [length] in Ha; lia|exact Hb].
Qed.

Lemma length_concat {A} m : forall ls : list (list A), (forall l, In l ls -> length l = m) -> length (concat ls) = (length ls * m)%nat.
Proof.
  induction ls as [|l ls IH]; intros H; [reflexivity|]. cbn [concat length Nat.mul].
  rewrite app_length, (H l (or_introl eq_refl)), IH; [reflexivity|intros x Hx; apply H; now right].
Qed.

Lemma repeat_pieces {A} (l : list A) n : forall x, In x (repeat l n) -> length x = length l.
Proof. intros x Hx. apply repeat_spec in Hx. now subst. Qed.

Lemma nth_repeat' {A} (l d : A) n i : (i < n)%nat -> nth i (repeat l n) d = l.
Proof. revert i; induction n as [|n IH]; intros [|i] H; cbn [repeat nth]; try lia; [reflexivity|]. apply IH. lia. Qed.

Lemma nth_dup {A} (d : A) m l a b : (a < length l)%nat -> (b < m)%nat -> nth (a * m + b) (flat_map (fun x => repeat x m) l) d = nth a l d.
Proof.
  intros Ha Hb. rewrite flat_map_concat_map. rewrite nth_concat with (m := m).
  - rewrite nth_indep with (d' := repeat d m) by (rewrite map_length; lia).
    rewrite (map_nth (fun x => repeat x m)). now apply nth_repeat'.
  - intros x Hx. apply in_map_iff in Hx. destruct Hx as (y & <- & _). apply repeat_length.
  - now rewrite map_length.
  - exact Hb.
Qed.

Lemma length_dup {A} m (l : list A) : length (flat_map (fun x => repeat x m) l) = (length l * m)%nat.
Proof.
  rewrite flat_map_concat_map, length_concat with (m := m); [now rewrite map_length|].
  intros x Hx. apply in_map_iff in Hx. destruct Hx as (y & <- & _). apply repeat_length.
Qed.

(** The samples in file order. *)
Definition spread (t : tone) (a : arrangement) (line : list Z) : list Z :=
  match a with
  | Planes => repeat_list (t_channels t) line
  | Pairs => repeat_list (t_channels t / 2) (flat_map (fun x => repeat x 2) line)
  | Interleaved => flat_map (fun x => repeat x (Z.to_nat (t_channels t))) line
  end.

Lemma spread_facts t a line : 0 < t_samples t -> 0 < t_channels t -> (a = Pairs -> t_channels t mod 2 = 0) ->
  length line = Z.to_nat (t_samples t) ->
  zlen (spread t a line) = t_channels t * t_samples t /\
  (forall ch i, 0 <= ch < t_channels t -> 0 <= i < t_samples t ->
    0 <= position a (t_channels t) (t_samples t) ch i < t_channels t * t_samples t /\
    nth (Z.to_nat (position a (t_channels t) (t_samples t) ch i)) (spread t a line) 0 = nth (Z.to_nat i) line 0).
Proof.
  set (S := t_samples t). set (C := t_channels t). intros HS HC HP HL. destruct a; cbn [spread position]; fold C.
  - unfold repeat_list. split.
    + unfold zlen. rewrite length_concat with (m := length line) by apply repeat_pieces. rewrite repeat_length. nia.
    + intros ch i Hc Hi. split; [nia|].
      replace (Z.to_nat (ch * S + i)) with (Z.to_nat ch * length line + Z.to_nat i)%nat by nia.
      rewrite nth_concat; [|apply repeat_pieces|rewrite repeat_length; lia|lia].
      now rewrite nth_repeat' by lia.
  - specialize (HP eq_refl). assert (HC2 : C = 2 * (C / 2)) by lia. set (H := C / 2) in *. clearbody H.
    unfold repeat_list. assert (HL2 : length (flat_map (fun x => repeat x 2) line) = (length line * 2)%nat) by apply length_dup.
    split.
    + unfold zlen. rewrite length_concat with (m := (length line * 2)%nat) by (intros x Hx; rewrite <- HL2; now apply repeat_pieces in Hx).
      rewrite repeat_length. nia.
    + intros ch i Hc Hi. assert (Hq : 0 <= ch / 2 < H) by lia. set (q := ch / 2) in *. assert (Hb : 0 <= ch mod 2 < 2) by lia.
      set (b := ch mod 2) in *. clearbody q b. clear Hc HP.
      assert (HqS : 0 <= q * S <= (H - 1) * S) by nia. split; [rewrite HC2; nia|].
      replace (Z.to_nat (2 * (q * S + i) + b)) with (Z.to_nat q * (length line * 2) + (Z.to_nat i * 2 + Z.to_nat b))%nat by nia.
      rewrite nth_concat; [|intros x Hx; rewrite <- HL2; now apply repeat_pieces in Hx|rewrite repeat_length; lia|lia].
      rewrite nth_repeat' by lia. apply nth_dup; lia.
  - split.
    + unfold zlen. rewrite length_dup. nia.
    + intros ch i Hc Hi. split; [nia|].
      replace (Z.to_nat (i * C + ch)) with (Z.to_nat i * Z.to_nat C + Z.to_nat ch)%nat by nia.
      apply nth_dup; lia.
Qed.

(** Packing. *)
Definition dsize (d : depth) : nat := match d with D16 => 2 | D24 => 3 | D32 => 4 | DFloat => 4 | DDouble => 8 end.

Lemma pack_all_ok p (enc : Z -> bytes) : forall l, (forall x, In x l -> p x = Ok (enc x)) -> pack_all p l = Ok (concat (map enc l)).
Proof.
  induction l as [|x l IH]; intros H; [reflexivity|]. cbn [pack_all map concat].
  rewrite (H x (or_introl eq_refl)). cbn [rbind]. rewrite IH by (intros y Hy; apply H; now right). reflexivity.
Qed.

Lemma pack_int_ok n v : (0 < n)%nat -> - 2 ^ (8 * Z.of_nat n - 1) <= v < 2 ^ (8 * Z.of_nat n - 1) -> pack_int n v = Ok (enc_uint n v).
Proof.
  intros _ H. unfold pack_int. replace ((- 2 ^ (8 * Z.of_nat n - 1) <=? v) && (v <? 2 ^ (8 * Z.of_nat n - 1))) with true by lia.
  rewrite Z.pow_mul_r by lia. change (2 ^ 8) with 256. now rewrite enc_uint_mod.
Qed.

Lemma pack_ok t d line : (forall x, In x line -> sample_fits d x) -> zlen line = Z.max 0 (t_samples t) * Z.max 0 (t_channels t) ->
  tone_pack t d line = Ok (concat (map (enc_uint (dsize d)) line)).
Proof.
  intros F L. unfold tone_pack, pack_counted.
  assert (E : zlen line =? Z.max 0 (Z.max 0 (t_samples t) * Z.max 0 (t_channels t)) = true).
  { rewrite L. apply Z.eqb_eq. symmetry. apply Z.max_r. pose proof (zlen_nonneg line). lia. }
  destruct d; rewrite ?E; apply pack_all_ok; intros x Hx; specialize (F x Hx); cbn [dsize sample_fits] in *.
  - apply pack_int_ok; [lia|exact F].
  - rewrite pack_int_ok; [|lia|].
    + reflexivity.
    + change (8 * Z.of_nat 4 - 1) with 31. change (2 ^ 23) with 8388608 in F. change (2 ^ 31) with 2147483648. lia.
  - apply pack_int_ok; [lia|exact F].
  - reflexivity.
  - reflexivity.
Qed.

Lemma little_le l : little_endian l = le_dec l.
Proof. induction l as [|b l IH]; cbn [little_endian le_dec]; [reflexivity|now rewrite IH]. Qed.

Lemma chunk_at n : forall (l : list Z) i, (i < length l)%nat ->
  zfirst (Z.of_nat n) (zskip (Z.of_nat i * Z.of_nat n) (concat (map (enc_uint n) l))) = enc_uint n (nth i l 0).
Proof.
  induction l as [|x l IH]; intros i Hi; [cbn [length] in Hi; lia|].
  cbn [map concat]. destruct i as [|i].
  - cbn [nth]. rewrite Z.mul_0_l, zskip_le0 by lia. rewrite <- (enc_uint_len n x) at 1. apply zfirst_app.
  - cbn [nth]. rewrite zskip_app_ge by (rewrite enc_uint_len; nia). rewrite enc_uint_len.
    replace (Z.of_nat (S i) * Z.of_nat n - Z.of_nat n) with (Z.of_nat i * Z.of_nat n) by lia.
    apply IH. cbn [length] in Hi. lia.
Qed.

Lemma zlen_chunks n (l : list Z) : zlen (concat (map (enc_uint n) l)) = zlen l * Z.of_nat n.
Proof.
  induction l as [|x l IH]; [reflexivity|]. cbn [map concat]. rewrite zlen_app, enc_uint_len, IH, zlen_cons. ring.
Qed.

(** The table. *)
Definition to_lay (a : arrangement) : lay := match a with Planes => LPlanes | Pairs => LPairs | Interleaved => LInterleaved end.

Lemma tone_entry f a size d : In (f, (a, size, d)) tone_table ->
  tone_depth f = Some d /\ tone_lay f = Some (to_lay a) /\ Z.of_nat (dsize d) = size /\ In (f, (a, size)) audio_table.
Proof.
  intros H. unfold tone_table in H. cbn [In] in H.
  repeat (destruct H as [H|H]; [injection H as <- <- <- <-; vm_compute; intuition|]). destruct H.
Qed.

(** The bytes of one grain. *)
Definition wave_at (t : tone) (d : depth) (n : Z) : Z := t_wave t d (n mod looplen t).

Lemma fresh_ok t a size d offs : In (t_format t, (a, size, d)) tone_table -> tone_ok t a d ->
  exists line, length line = Z.to_nat (t_samples t) /\
    (forall i, 0 <= i < t_samples t -> nth (Z.to_nat i) line 0 = wave_at t d (offs + i)) /\
    fresh_samples t offs = Ok (concat (map (enc_uint (dsize d)) (spread t a line))).
Proof.
  intros Hin (HS & HC & HR & Hf & HP & HF). destruct (tone_entry _ _ _ _ Hin) as (Ed & El & Es & _).
  assert (HLp := looplen_pos t HR Hf).
  set (line := map (fun i => t_wave t d ((offs + i) mod looplen t)) (zrange (t_samples t))).
  assert (HL : length line = Z.to_nat (t_samples t)) by (unfold line; rewrite map_length; apply zrange_len; lia).
  exists line. split; [exact HL|]. split; [intros i Hi; unfold line; now rewrite nth_map_zrange|].
  unfold fresh_samples. rewrite Ed, El. unfold tone_line.
  assert (Hd : zlen (map (t_wave t d) (zrange (looplen t))) = looplen t).
  { unfold zlen. rewrite map_length, zrange_len by lia. lia. }
  rewrite Hd. replace (looplen t =? 0) with false by lia. cbn [andb].
  assert (Em : map (fun i => nth (Z.to_nat ((offs + i) mod looplen t)) (map (t_wave t d) (zrange (looplen t))) 0) (zrange (t_samples t)) = line).
  { apply map_ext. intros i. apply nth_map_zrange. apply Z.mod_pos_bound. exact HLp. }
  rewrite Em. cbn [rbind].
  destruct (spread_facts t a line HS HC HP HL) as [SL _].
  assert (Esp : match to_lay a with
                | LPlanes => repeat_list (t_channels t) line
                | LPairs => repeat_list (t_channels t / 2) (flat_map (fun x => repeat x 2) line)
                | LInterleaved => flat_map (fun x => repeat x (Z.to_nat (t_channels t))) line
                end = spread t a line) by (destruct a; reflexivity).
  rewrite Esp. apply pack_ok.
  - intros x Hx.
    assert (Hx' : In x line).
    { clear - Hx. destruct a; cbn [spread] in Hx; unfold repeat_list in Hx.
      - apply in_concat in Hx. destruct Hx as (l & Hl & Hx). apply repeat_spec in Hl. now subst l.
      - apply in_concat in Hx. destruct Hx as (l & Hl & Hx). apply repeat_spec in Hl. subst l.
        apply in_flat_map in Hx. destruct Hx as (y & Hy & Hx). apply repeat_spec in Hx. now subst y.
      - apply in_flat_map in Hx. destruct Hx as (y & Hy & Hx). apply repeat_spec in Hx. now subst y. }
    unfold line in Hx'. apply in_map_iff in Hx'. destruct Hx' as (i & <- & _). apply HF.
  - rewrite SL. rewrite !Z.max_r by lia. ring.
Qed.

(** The grain at a key. *)
Lemma tone_at k t a size d key : In (t_format t, (a, size, d)) tone_table -> tone_ok t a d ->
  let c := count_at k key (t_sample_rate t, 1) in
  (c mod t_samples t <> 0 -> snd (tone_get k t [] key) = Ok None) /\
  (c mod t_samples t = 0 -> exists data,
    snd (tone_get k t [] key) = Ok (Some (mkTg (from_count k c (t_sample_rate t) 1) (tone_rate t) data)) /\
    zlen data = t_channels t * t_samples t * size /\
    zlen data = size_for_audio_format (t_format t) (t_channels t) (t_samples t) /\
    forall ch i, 0 <= ch < t_channels t -> 0 <= i < t_samples t ->
      zlen (sample_bytes size data (position a (t_channels t) (t_samples t) ch i)) = size /\
      little_endian (sample_bytes size data (position a (t_channels t) (t_samples t) ch i)) =
      wave_at t d (c + i) mod 2 ^ (8 * size)).
Proof.
  intros Hin HO c. pose proof HO as (HS & HC & HR & Hf & HP & HF). assert (HLp := looplen_pos t HR Hf).
  unfold tone_get. fold c. split; intros Hm.
  - replace (c mod t_samples t =? 0) with false by lia. reflexivity.
  - rewrite Hm. cbn [Z.eqb negb]. replace (looplen t =? 0) with false by lia.
    destruct (fresh_ok t a size d (c mod looplen t) Hin HO) as (line & HL & HN & HFr).
    destruct (spread_facts t a line HS HC HP HL) as [SL SN].
    destruct (tone_entry _ _ _ _ Hin) as (_ & _ & Es & Ha). destruct (audio_size _ _ _ (t_channels t) (t_samples t) Ha) as [Esz _].
    assert (Hst : stored_channels a (t_channels t) = t_channels t).
    { unfold stored_channels. destruct a; try reflexivity. rewrite (HP eq_refl). lia. }
    rewrite Hst in Esz.
    set (data := concat (map (enc_uint (dsize d)) (spread t a line))) in *.
    assert (HD : zlen data = t_channels t * t_samples t * size) by (unfold data; rewrite zlen_chunks, SL, Es; reflexivity).
    exists data. split; [|split; [exact HD|split; [now rewrite HD, Esz|]]].
    + unfold get_samples. cbn [cached]. rewrite HFr. cbn [snd rbind]. rewrite zfirst_all by (rewrite HD, Esz; apply Z.le_refl). reflexivity.
    + intros ch i Hc Hi. destruct (SN ch i Hc Hi) as [Hpos Hnth].
      set (pos := position a (t_channels t) (t_samples t) ch i) in *.
      assert (Hch : sample_bytes size data pos = enc_uint (dsize d) (wave_at t d (c + i))).
      { unfold sample_bytes, data. rewrite <- Es. replace pos with (Z.of_nat (Z.to_nat pos)) at 1 by lia.
        rewrite chunk_at; [|unfold zlen in SL; lia]. rewrite Hnth, HN by exact Hi. f_equal. unfold wave_at. f_equal.
        rewrite Z.add_mod_idemp_l by lia. reflexivity. }
      rewrite Hch. split; [rewrite enc_uint_len; exact Es|].
      rewrite little_le, le_dec_enc, Es, Z.pow_mul_r by lia. reflexivity.
Qed.

(** The cache makes no difference. *)
Definition cache_ok (t : tone) (c : cache) : Prop := forall o b, cached c o = Some b -> fresh_samples t o = Ok b.

Lemma cache_get k t c key : cache_ok t c -> cache_ok t (fst (tone_get k t c key)) /\ snd (tone_get k t c key) = snd (tone_get k t [] key).
Proof.
  intros H. unfold tone_get. destruct (negb (count_at k key (t_sample_rate t, 1) mod t_samples t =? 0)); [now split|].
  destruct (looplen t =? 0); [now split|].
  set (offs := count_at k key (t_sample_rate t, 1) mod looplen t). unfold get_samples. cbn [cached].
  destruct (cached c offs) as [b|] eqn:E.
  - rewrite (H _ _ E). now split.
  - destruct (fresh_samples t offs) as [b|e] eqn:F; (split; [|reflexivity]); cbn [fst]; [|exact H].
    intros o b' Hc. cbn [cached] in Hc. destruct (Z.eqb_spec offs o) as [<-|_]; [|now apply H].
    injection Hc as <-. exact F.
Qed.

Lemma cache_irrelevant k t : forall keys c, cache_ok t c -> tone_gets k t c keys = map (fun key => snd (tone_get k t [] key)) keys.
Proof.
  induction keys as [|key keys IH]; intros c H; [reflexivity|]. cbn [tone_gets map].
  destruct (cache_get k t c key H) as [H1 H2]. destruct (tone_get k t c key) as [c' r]. cbn [fst snd] in *.
  now rewrite <- H2, IH.
Qed.

Lemma cache_history k t keys : tone_gets k t [] keys = map (fun key => snd (tone_get k t [] key)) keys.
Proof. apply cache_irrelevant. intros o b H. discriminate. Qed.

(** Counts of grains are counts of samples. *)
Lemma fraction_parts R S : 0 < R -> 0 < S -> exists g, 0 < g /\ R = fst (fraction R S) * g /\ S = snd (fraction R S) * g.
Proof.
  intros HR HS. exists (Z.gcd R S). unfold fraction. cbn [fst snd].
  assert (Hg : 0 < Z.gcd R S) by (pose proof (Z.gcd_nonneg R S); assert (Z.gcd R S <> 0) by (intros E; apply Z.gcd_eq_0_l in E; lia); lia).
  split; [exact Hg|].
  destruct (Z.gcd_divide_l R S) as [a Ha]. destruct (Z.gcd_divide_r R S) as [b Hb].
  set (g := Z.gcd R S) in *. clearbody g. split.
  - rewrite Ha, Z.div_mul by lia. reflexivity.
  - rewrite Hb, Z.div_mul by lia. reflexivity.
Qed.

Lemma tone_count k t c : clock_ok k -> slow (t_sample_rate t, 1) -> 0 < t_samples t ->
  count_at k (TvCount c (tone_rate t)) (t_sample_rate t, 1) = c * t_samples t.
Proof.
  intros K S HS. pose proof S as (HR & _ & Hs). cbn [fst snd] in *. unfold tone_rate.
  set (R := t_sample_rate t) in *. set (m := t_samples t) in *.
  destruct (fraction_parts R m HR HS) as (g & Hg & E1 & E2). destruct (fraction R m) as [n d] eqn:Ef. cbn [fst snd] in *.
  cbn [count_at]. destruct (rate_eqb (n, d) (R, 1)) eqn:Er.
  - apply rate_eqb_eq in Er. injection Er as -> ->. assert (g = 1) by nia. subst g. lia.
  - assert (Hn : 0 < n) by nia. assert (Hd : 0 < d) by nia. cbn [fst snd].
    destruct (K _ _ Hn Hd) as [F _]. specialize (F c). destruct (K _ _ HR Z.lt_0_1) as [_ T].
    specialize (T (from_count k c n d)). set (ns := from_count k c n d) in *. set (x := to_count k ns R 1) in *.
    rewrite Z.mul_1_r in *.
    assert (F2 : Z.abs (ns * R - c * m * second) <= R).
    { rewrite E1, E2. replace (ns * (n * g) - c * (d * g) * second) with ((ns * n - c * second * d) * g) by ring.
      rewrite Z.abs_mul, (Z.abs_eq g) by lia. apply Z.mul_le_mono_nonneg_r; [lia|exact F]. }
    apply (squeeze _ _ second); [reflexivity|]. lia.
Qed.

(** A range of grains is one stretch of the waveform. *)
Lemma tone_run k t a size d ch : In (t_format t, (a, size, d)) tone_table -> tone_ok t a d ->
  clock_ok k -> slow (t_sample_rate t, 1) -> 0 <= ch < t_channels t -> forall m a0 i,
  exists gs,
    run_gen (fun v => snd (tone_get k t [] v)) (fun _ => Ok true) i (map (fun c => TvCount c (tone_rate t)) (between a0 (a0 + Z.of_nat m))) = (gs, None) /\
    map tg_origin gs = map (fun c => grid k (t_sample_rate t, 1) (c * t_samples t)) (between a0 (a0 + Z.of_nat m)) /\
    flat_map (fun g => channel_samples t a size ch (tg_data g)) gs =
    map (fun n => wave_at t d n mod 2 ^ (8 * size)) (between (a0 * t_samples t) ((a0 + Z.of_nat m) * t_samples t)).
Proof.
  intros Hin HO K S Hch. pose proof HO as (HS & _). induction m as [|m IH]; intros a0 i.
  - exists []. rewrite Z.add_0_r. assert (E : forall x, between x x = []) by (intros x; unfold between; now rewrite Z.sub_diag).
    rewrite !E. repeat split.
  - assert (Ec : between a0 (a0 + Z.of_nat (Datatypes.S m)) = a0 :: between (a0 + 1) (a0 + 1 + Z.of_nat m)).
    { rewrite (between_app a0 (a0 + 1)) by lia. replace (a0 + Z.of_nat (Datatypes.S m)) with (a0 + 1 + Z.of_nat m) by lia.
      unfold between at 1. rewrite Z.add_simpl_l. change (Z.to_nat 1) with 1%nat. cbn [seq map app]. f_equal. apply Z.add_0_r. }
    rewrite Ec. cbn [map run_gen].
    destruct (tone_at k t a size d (TvCount a0 (tone_rate t)) Hin HO) as [_ H].
    rewrite (tone_count k t a0 K S HS) in H.
    assert (HS0 : t_samples t <> 0) by (clear - HS; lia). destruct (H (Z.mod_mul a0 (t_samples t) HS0)) as (data & E & _ & _ & HC). rewrite E.
    destruct (IH (a0 + 1) (i + 1)) as (gs & R & O & D). rewrite R.
    eexists. split; [reflexivity|]. split; [cbn [map tg_origin]; now rewrite O|].
    cbn [flat_map tg_data]. rewrite D.
    rewrite (between_app (a0 * t_samples t) ((a0 + 1) * t_samples t)) by (clear - HS; nia).
    rewrite map_app. f_equal.
    + unfold channel_samples. unfold between. rewrite Z.sub_0_r.
      replace ((a0 + 1) * t_samples t - a0 * t_samples t) with (t_samples t) by ring.
      rewrite !map_map. apply map_ext_in. intros j Hj. apply in_seq in Hj.
      destruct (HC ch (0 + Z.of_nat j) Hch) as [_ HV]; [lia|]. rewrite HV. reflexivity.
    + f_equal. f_equal. f_equal. lia.
Qed.

Lemma tone_range k t a size d ch s i e j rt n :
  In (t_format t, (a, size, d)) tone_table -> tone_ok t a d -> clock_ok k -> slow (t_sample_rate t, 1) -> 0 <= ch < t_channels t ->
  rt = None \/ rt = Some (tone_rate t) ->
  let x := first_count k (tone_rate t) s i in let y := end_count k (tone_rate t) e j in
  x <= y -> (Z.to_nat (y - x) <= n)%nat ->
  exists gs, get_range k (tone_rate t) (fun v => snd (tone_get k t [] v)) (mkTr (Some s) i (Some e) j rt) 1 n = (gs, None) /\
    map tg_origin gs = map (fun c => grid k (t_sample_rate t, 1) (c * t_samples t)) (between x y) /\
    flat_map (fun g => channel_samples t a size ch (tg_data g)) gs =
    map (fun n => wave_at t d n mod 2 ^ (8 * size)) (between (x * t_samples t) (y * t_samples t)).
Proof.
  intros Hin HO K S Hch R x y Hxy Hn. rewrite get_range_unfold.
  replace (match rt with Some r => r | None => tone_rate t end) with (tone_rate t) by (destruct R; subst rt; reflexivity).
  rewrite range_between by exact Hn. fold x y.
  replace y with (x + Z.of_nat (Z.to_nat (y - x))) by lia.
  exact (tone_run k t a size d ch Hin HO K S Hch (Z.to_nat (y - x)) x 0).
Qed.

(** With the period left open. *)
Lemma tone_seamless t a size d : In (t_format t, (a, size, d)) tone_table -> tone_ok t a d ->
  exists p, period t p /\
  forall k key, let c := count_at k key (t_sample_rate t, 1) in
  (c mod t_samples t <> 0 -> snd (tone_get k t [] key) = Ok None) /\
  (c mod t_samples t = 0 -> exists data,
    snd (tone_get k t [] key) = Ok (Some (mkTg (grid k (t_sample_rate t, 1) c) (tone_rate t) data)) /\
    zlen data = t_channels t * t_samples t * size /\
    zlen data = size_for_audio_format (t_format t) (t_channels t) (t_samples t) /\
    forall ch i, 0 <= ch < t_channels t -> 0 <= i < t_samples t ->
      zlen (sample_bytes size data (position a (t_channels t) (t_samples t) ch i)) = size /\
      little_endian (sample_bytes size data (position a (t_channels t) (t_samples t) ch i)) =
      t_wave t d ((c + i) mod p) mod 2 ^ (8 * size)).
Proof.
  intros Hin HO. pose proof HO as (_ & _ & HR & Hf & _). exists (looplen t). split; [now apply looplen_period|].
  intros k key c. exact (tone_at k t a size d key Hin HO).
Qed.

Lemma tone_stream t a size d : In (t_format t, (a, size, d)) tone_table -> tone_ok t a d ->
  exists p, period t p /\
  forall k ch s i e j rt n, clock_ok k -> slow (t_sample_rate t, 1) -> 0 <= ch < t_channels t ->
  rt = None \/ rt = Some (tone_rate t) ->
  let x := first_count k (tone_rate t) s i in let y := end_count k (tone_rate t) e j in
  x <= y -> (Z.to_nat (y - x) <= n)%nat ->
  exists gs, get_range k (tone_rate t) (fun v => snd (tone_get k t [] v)) (mkTr (Some s) i (Some e) j rt) 1 n = (gs, None) /\
    map tg_origin gs = map (fun c => grid k (t_sample_rate t, 1) (c * t_samples t)) (between x y) /\
    flat_map (fun g => channel_samples t a size ch (tg_data g)) gs =
    map (fun m => t_wave t d (m mod p) mod 2 ^ (8 * size)) (between (x * t_samples t) (y * t_samples t)).
Proof.
  intros Hin HO. pose proof HO as (_ & _ & HR & Hf & _). exists (looplen t). split; [now apply looplen_period|].
  intros k ch s i e j rt n K S Hch R x y Hxy Hn. exact (tone_range k t a size d ch s i e j rt n Hin HO K S Hch R Hxy Hn).
Qed.

(** Channels in pairs need an even number of channels, except with three bytes a sample. *)
Lemma tone_odd_pairs t d offs : In (t_format t, (Pairs, Z.of_nat (dsize d), d)) tone_table -> d <> D24 ->
  0 < t_samples t -> 0 < t_channels t -> t_channels t mod 2 = 1 -> 0 < t_sample_rate t -> 0 <= t_frequency t ->
  fresh_samples t offs = Err EStruct.
Proof.
  intros Hin Hd HS HC Hodd HR Hf. destruct (tone_entry _ _ _ _ Hin) as (Ed & El & _ & _). assert (HLp := looplen_pos t HR Hf).
  unfold fresh_samples. rewrite Ed, El. unfold tone_line. cbn [to_lay].
  assert (Hz : zlen (map (t_wave t d) (zrange (looplen t))) = looplen t).
  { unfold zlen. rewrite map_length, zrange_len by lia. lia. }
  rewrite Hz. replace (looplen t =? 0) with false by lia. cbn [andb rbind].
  set (line := map _ (zrange (t_samples t))).
  assert (HL : length line = Z.to_nat (t_samples t)) by (unfold line; rewrite map_length; apply zrange_len; lia).
  set (all := repeat_list (t_channels t / 2) (flat_map (fun x => repeat x 2) line)).
  assert (HA : zlen all = t_channels t / 2 * 2 * t_samples t).
  { unfold all, repeat_list, zlen. rewrite length_concat with (m := (length line * 2)%nat).
    - rewrite repeat_length. nia.
    - intros x Hx. apply repeat_spec in Hx. subst x. apply length_dup. }
  assert (N : zlen all =? Z.max 0 (Z.max 0 (t_samples t) * Z.max 0 (t_channels t)) = false).
  { rewrite HA. apply Z.eqb_neq. rewrite !(Z.max_r 0) by nia. assert (t_channels t = t_channels t / 2 * 2 + 1) by lia.
    set (q := t_channels t / 2 * 2) in *. nia. }
  destruct d; try contradiction; unfold tone_pack, pack_counted; rewrite N; reflexivity.
Qed.
