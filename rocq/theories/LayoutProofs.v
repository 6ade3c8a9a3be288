(** Proofs about the buffers of new grains and the format numbers. *)
From Coq Require Import Lia ZifyBool ZifyNat.
From Verif Require Import Base BaseProofs CogEnums VideoLayout LayoutSpec.
Ltac Zify.zify_post_hook ::= Z.div_mod_to_equations.


Lemma shiftr_nonneg' a n : 0 <= a -> 0 <= Z.shiftr a n.
Proof. intros. apply Z.shiftr_nonneg. lia. Qed.

Lemma planar_bpv_pos fmt : 0 < planar_bpv fmt.
Proof. unfold planar_bpv. destruct (_ =? _); [lia |]. destruct (_ =? _); lia. Qed.

Lemma size_nonneg f w h : 0 <= w -> 0 <= h -> 0 <= size_for_format f w h.
Proof.
  intros Hw Hh. unfold size_for_format.
  pose proof (planar_bpv_pos f). assert (0 <= w * h) by nia.
  assert (0 <= (w + 47) / 48) by lia.
  repeat match goal with |- context [if ?b then _ else _] => destruct b end; try nia.
  pose proof (shiftr_nonneg' (w * h) (Z.land f 1 + Z.land (Z.shiftr f 1) 1)). nia.
Qed.

Lemma components_tile f w h : 0 <= w -> 0 <= h -> tiles 0 (components_for_format f w h) (size_for_format f w h).
Proof.
  intros Hw Hh. unfold components_for_format, size_for_format.
  pose proof (planar_bpv_pos f). assert (0 <= w * h) by nia.
  assert (0 <= (w + 47) / 48) by lia.
  pose proof (shiftr_nonneg' (w * h) (Z.land f 1 + Z.land (Z.shiftr f 1) 1)).
  repeat match goal with |- context [if ?b then _ else _] => destruct b end;
    cbn [tiles vc_offset vc_length]; repeat split; nia.
Qed.

Lemma expected_tiles : forall l a b acc, tiles a l b -> acc = a -> 0 <= a ->
  fold_left (fun length c => if vc_offset c + vc_length c >? length then vc_offset c + vc_length c else length) l acc = b.
Proof.
  induction l as [| c l IH]; intros a b acc Ht -> Ha.
  - exact Ht.
  - destruct Ht as (Ho & Hl & Ht). cbn [fold_left].
    apply IH with (a := a + vc_length c); [exact Ht | | lia].
    rewrite Ho. destruct (Z.gtb_spec (a + vc_length c) a); lia.
Qed.

Lemma zlen_zeros' n : 0 <= n -> zlen (zeros (Z.to_nat n)) = n.
Proof. intros. unfold zeros. rewrite zlen_repeat. lia. Qed.

Lemma video_tiles f w h : 0 <= w -> 0 <= h ->
  exists data comps, new_video f w h = Ok (data, comps) /\ Forall (eq 0) data /\
    tiles 0 comps (zlen data) /\ video_expected_length comps = zlen data.
Proof.
  intros Hw Hh. pose proof (size_nonneg f w h Hw Hh) as Hs. pose proof (components_tile f w h Hw Hh) as Ht.
  unfold new_video. cbv zeta. destruct (Z.ltb_spec (size_for_format f w h) 0); [lia |].
  do 2 eexists. split; [reflexivity |]. rewrite zlen_zeros' by lia.
  split; [| split; [exact Ht |]].
  - apply Forall_forall. intros x Hx. apply repeat_spec in Hx. congruence.
  - apply (expected_tiles _ 0 _ 0); [exact Ht | reflexivity | lia].
Qed.


Ltac each_format H :=
  repeat (destruct H as [H | H]; [injection H as <- <- | ]); [.. | destruct H].

Lemma video_planes f p w h : In (f, p) pictures -> 0 <= w -> 0 <= h ->
  map geometry (components_for_format f w h) = planes p w h.
Proof.
  intros Hin Hw Hh. unfold pictures in Hin. cbn [In] in Hin.
  each_format Hin;
  (unfold components_for_format;
   match goal with |- context [Z.shiftr ?f 8] =>
     let b := eval vm_compute in (Z.land (Z.shiftr f 8) 1 =? 0) in
     change (Z.land (Z.shiftr f 8) 1 =? 0) with b end; cbv iota zeta;
   cbn [map geometry vc_width vc_height vc_stride planes]).
  all: try (match goal with |- context [Z.shiftr _ (Z.land ?f 1)] =>
     let a := eval vm_compute in (Z.land f 1) in change (Z.land f 1) with a;
     let b := eval vm_compute in (Z.land (Z.shiftr f 1) 1) in change (Z.land (Z.shiftr f 1) 1) with b;
     let c := eval vm_compute in (planar_bpv f) in change (planar_bpv f) with c end;
     unfold geometry; cbn [vc_width vc_height vc_stride];
     rewrite ?Z.shiftr_0_r, ?Z.shiftr_div_pow2 by lia; change (2 ^ 1) with 2; rewrite ?Z.div_1_r; reflexivity).
  all: repeat match goal with |- context [member ?l ?f] =>
     let b := eval vm_compute in (member l f) in change (member l f) with b; cbv iota end.
  all: repeat match goal with |- context [Z.eqb ?f ?g] =>
     let b := eval vm_compute in (Z.eqb f g) in
     match b with true => idtac | false => idtac end; change (Z.eqb f g) with b; cbv iota end.
  all: unfold geometry; cbn [map vc_width vc_height vc_stride]; try reflexivity.
  do 3 f_equal. destruct (Z.eqb_spec (w mod 48) 0); lia.
Qed.

Lemma floor_mul a b p q : 0 < p -> 0 < q -> 0 <= a -> 0 <= b -> (a / p) * (b / q) <= (a * b) / (p * q).
Proof.
  intros. apply Z.div_le_lower_bound; [nia |].
  pose proof (Z.mul_div_le a p). pose proof (Z.mul_div_le b q).
  assert (0 <= a / p) by (apply Z.div_pos; lia). assert (0 <= b / q) by (apply Z.div_pos; lia).
  replace (p * q * (a / p * (b / q))) with ((p * (a / p)) * (q * (b / q))) by ring.
  apply Z.mul_le_mono_nonneg; nia.
Qed.

Lemma floor_mul_eq a b p q : 0 < p -> 0 < q -> 0 <= a -> 0 <= b ->
  ((a / p) * (b / q) = (a * b) / (p * q) <-> a * b - (a - a mod p) * (b - b mod q) < p * q).
Proof.
  intros Hp Hq Ha Hb. pose proof (floor_mul a b p q Hp Hq Ha Hb) as Hle.
  rewrite !Z.mod_eq by lia.
  replace ((a - (a - p * (a / p))) * (b - (b - q * (b / q)))) with (p * q * (a / p * (b / q))) by ring.
  assert (Hm : 0 < p * q) by nia. pose proof (Z.div_mod (a * b) (p * q)) as Hd. pose proof (Z.mod_pos_bound (a * b) (p * q)) as Hr.
  set (k := a / p * (b / q)) in *. set (n := a * b) in *. set (m := p * q) in *.
  set (c := n / m) in *. set (r := n mod m) in *. clearbody k n m c r. split; intros; nia.
Qed.

(** The lengths of the components. *)
Definition plane_lengths (p : picture) (w h : Z) : list Z :=
  match p with
  | Planar hs vs b => [w * h * b; (w * h) / (hs * vs) * b; (w * h) / (hs * vs) * b]
  | Packed n => [w * h * n]
  | Grouped => [h * ((w + 47) / 48 * 128)]
  end.

Lemma video_lengths f p w h : In (f, p) pictures -> 0 <= w -> 0 <= h ->
  map vc_length (components_for_format f w h) = plane_lengths p w h.
Proof.
  intros Hin Hw Hh. unfold pictures in Hin. cbn [In] in Hin.
  each_format Hin;
  (unfold components_for_format;
   match goal with |- context [Z.shiftr ?f 8] =>
     let b := eval vm_compute in (Z.land (Z.shiftr f 8) 1 =? 0) in
     change (Z.land (Z.shiftr f 8) 1 =? 0) with b end; cbv iota zeta;
   cbn [map vc_length plane_lengths]).
  all: try (match goal with |- context [Z.shiftr _ (Z.land ?f 1 + _)] =>
     let a := eval vm_compute in (Z.land f 1 + Z.land (Z.shiftr f 1) 1) in
     change (Z.land f 1 + Z.land (Z.shiftr f 1) 1) with a;
     let c := eval vm_compute in (planar_bpv f) in change (planar_bpv f) with c end;
     rewrite ?Z.shiftr_0_r, ?Z.shiftr_div_pow2 by lia; change (2 ^ 1) with 2; change (2 ^ 2) with 4;
     change (2 * 2) with 4; change (2 * 1) with 2; change (1 * 1) with 1; rewrite ?Z.div_1_r; reflexivity).
  all: repeat match goal with |- context [member ?l ?f] =>
     let b := eval vm_compute in (member l f) in change (member l f) with b; cbv iota end.
  all: repeat match goal with |- context [Z.eqb ?f ?g] =>
     let b := eval vm_compute in (Z.eqb f g) in
     match b with true => idtac | false => idtac end; change (Z.eqb f g) with b; cbv iota end.
  all: cbn [map vc_length]; try reflexivity; f_equal; lia.
Qed.


Lemma planar_pos f hs vs b : In (f, Planar hs vs b) pictures -> 0 < hs /\ 0 < vs /\ 0 < b.
Proof.
  intros Hin. assert (H : forallb (fun x => match snd x with Planar a b c => (0 <? a) && (0 <? b) && (0 <? c) | _ => true end) pictures = true)
    by (vm_compute; reflexivity).
  rewrite forallb_forall in H. specialize (H _ Hin). cbn [snd] in H. lia.
Qed.

Lemma planar_shape f hs vs b w h : In (f, Planar hs vs b) pictures -> 0 <= w -> 0 <= h ->
  exists o1 o2 o3, components_for_format f w h =
    [mkVc (w * b) o1 w h (w * h * b);
     mkVc (w / hs * b) o2 (w / hs) (h / vs) ((w * h) / (hs * vs) * b);
     mkVc (w / hs * b) o3 (w / hs) (h / vs) ((w * h) / (hs * vs) * b)].
Proof.
  intros Hin Hw Hh. pose proof (video_planes _ _ w h Hin Hw Hh) as Hp. pose proof (video_lengths _ _ w h Hin Hw Hh) as Hl.
  destruct (components_for_format f w h) as [| [s1 o1 w1 h1 l1] [| [s2 o2 w2 h2 l2] [| [s3 o3 w3 h3 l3] [|]]]];
    cbn [map planes plane_lengths geometry vc_width vc_height vc_stride vc_length] in Hp, Hl; try discriminate.
  exists o1, o2, o3. unfold geometry in Hp. cbn [vc_width vc_height vc_stride] in Hp.
  injection Hp as -> -> -> -> -> -> -> -> ->. injection Hl as -> -> ->. reflexivity.
Qed.

Lemma video_strides f p w h : In (f, p) pictures -> 0 <= w -> 0 <= h ->
  Forall fits (components_for_format f w h) /\
  (Forall full (components_for_format f w h) <-> edge_small p w h).
Proof.
  intros Hin Hw Hh. destruct p as [hs vs b | n |].
  - pose proof (planar_pos _ _ _ _ Hin) as (H1 & H2 & H3).
    destruct (planar_shape f hs vs b w h Hin Hw Hh) as (o1 & o2 & o3 & ->).
    pose proof (floor_mul w h hs vs H1 H2 Hw Hh) as Hle. pose proof (floor_mul_eq w h hs vs H1 H2 Hw Hh) as Heq.
    unfold fits, full, edge_small.
    assert (Hr : w / hs * b * (h / vs) = w / hs * (h / vs) * b) by ring.
    split.
    + repeat constructor; cbn [vc_stride vc_height vc_length]; rewrite ?Hr; try nia.
    + rewrite <- Heq. split; intros H.
      * apply Forall_inv_tail, Forall_inv in H. cbn [vc_stride vc_height vc_length] in H. rewrite Hr in H.
        apply Z.mul_reg_r in H; lia.
      * repeat constructor; cbn [vc_stride vc_height vc_length]; rewrite ?Hr, ?H; ring.
  - pose proof (video_planes _ _ w h Hin Hw Hh) as Hp. pose proof (video_lengths _ _ w h Hin Hw Hh) as Hl.
    destruct (components_for_format f w h) as [| [s1 o1 w1 h1 l1] [|]]; cbn [map planes plane_lengths] in Hp, Hl; try discriminate.
    unfold geometry in Hp. cbn [vc_width vc_height vc_stride vc_length] in Hp, Hl. injection Hp as -> -> ->. injection Hl as ->.
    unfold fits, full. cbn [edge_small]. split; [| split; [trivial | intros _]]; (constructor; [| constructor]);
      cbn [vc_stride vc_height vc_length]; nia.
  - pose proof (video_planes _ _ w h Hin Hw Hh) as Hp. pose proof (video_lengths _ _ w h Hin Hw Hh) as Hl.
    destruct (components_for_format f w h) as [| [s1 o1 w1 h1 l1] [|]]; cbn [map planes plane_lengths] in Hp, Hl; try discriminate.
    unfold geometry in Hp. cbn [vc_width vc_height vc_stride vc_length] in Hp, Hl. injection Hp as -> -> ->. injection Hl as ->.
    assert (E : (if w mod 48 =? 0 then w / 48 else w / 48 + 1) = (w + 47) / 48) by (destruct (Z.eqb_spec (w mod 48) 0); lia).
    rewrite E.
    unfold fits, full. cbn [edge_small]. split; [| split; [trivial | intros _]]; (constructor; [| constructor]);
      cbn [vc_stride vc_height vc_length]; nia.
Qed.

Lemma compatible_edge f p w h : In (f, p) pictures -> 0 <= w -> 0 <= h -> compatible p w h -> edge_small p w h.
Proof.
  intros Hin Hw Hh. destruct p as [hs vs b | |]; cbn [compatible edge_small]; trivial.
  pose proof (planar_pos _ _ _ _ Hin) as (H1 & H2 & H3). intros [-> ->]. nia.
Qed.

(** Every line of every component lies inside it. *)
Lemma video_lines f p w h c k : In (f, p) pictures -> 0 <= w -> 0 <= h -> In c (components_for_format f w h) ->
  0 <= k < vc_height c ->
  vc_offset c <= vc_offset c + k * vc_stride c /\
  vc_offset c + (k + 1) * vc_stride c <= vc_offset c + vc_length c.
Proof.
  intros Hin Hw Hh Hc Hk. destruct (video_strides f p w h Hin Hw Hh) as [Hf _]. rewrite Forall_forall in Hf.
  pose proof (Hf _ Hc) as Hfc. unfold fits in Hfc.
  assert (Hs : 0 <= vc_stride c).
  { pose proof (video_planes _ _ w h Hin Hw Hh) as Hp. apply (in_map geometry) in Hc. rewrite Hp in Hc.
    destruct p as [hs vs b | n |]; cbn [planes In] in Hc; unfold geometry in Hc.
    - pose proof (planar_pos _ _ _ _ Hin) as (H1 & H2 & H3). assert (0 <= w / hs) by (apply Z.div_pos; lia).
      destruct Hc as [E | [E | [E | []]]]; injection E as _ _ <-; nia.
    - destruct Hc as [E | []]. injection E as _ _ <-.
      assert (H : forallb (fun x => match snd x with Packed a => 0 <? a | _ => true end) pictures = true) by (vm_compute; reflexivity).
      rewrite forallb_forall in H. specialize (H _ Hin). cbn [snd] in H. nia.
    - destruct Hc as [E | []]. injection E as _ _ <-. destruct (w mod 48 =? 0); lia. }
  nia.
Qed.

(** Audio. *)
Lemma audio_size f a b channels samples : In (f, (a, b)) audio_table ->
  size_for_audio_format f channels samples = stored_channels a channels * samples * b /\ AUDIO_SAMPLEBYTES f = b.
Proof.
  intros Hin. unfold audio_table in Hin. cbn [In] in Hin.
  repeat (destruct Hin as [Hin | Hin]; [injection Hin as <- <- <- |]); [.. | destruct Hin].
  all: (split; [| vm_compute; reflexivity]);
    unfold size_for_audio_format;
    repeat match goal with |- context [Z.eqb (Z.land ?a ?b) ?c] =>
      let x := eval vm_compute in (Z.eqb (Z.land a b) c) in change (Z.eqb (Z.land a b) c) with x; cbv iota zeta end;
    try match goal with |- context [Z.shiftr (Z.land ?a ?b) 2 + 2] =>
      let x := eval vm_compute in (Z.shiftr (Z.land a b) 2 + 2) in change (Z.shiftr (Z.land a b) 2 + 2) with x end;
    cbn [stored_channels]; try reflexivity.
  all: do 2 f_equal; lia.
Qed.

Lemma audio_compressed f channels samples : In f audio_formats -> AUDIO_IS_COMPRESSED f = true ->
  size_for_audio_format f channels samples = 0.
Proof. intros _ H. unfold size_for_audio_format. unfold AUDIO_IS_COMPRESSED in H. rewrite H. reflexivity. Qed.

Lemma audio_table_complete f : In f audio_formats -> AUDIO_IS_COMPRESSED f = true \/ f = 0xc \/ In f (map fst audio_table).
Proof.
  intros Hin. assert (H : forallb (fun f => AUDIO_IS_COMPRESSED f || (f =? 0xc) || existsb (Z.eqb f) (map fst audio_table)) audio_formats = true)
    by (vm_compute; reflexivity).
  rewrite forallb_forall in H. specialize (H _ Hin). apply orb_true_iff in H. destruct H as [H | H].
  - apply orb_true_iff in H. destruct H as [H | H]; [left; exact H | right; left; lia].
  - right; right. apply existsb_exists in H. destruct H as (x & Hx & E). apply Z.eqb_eq in E. subst. exact Hx.
Qed.

Lemma audio_depth_pos f : 0 < (if Z.land f 0xC =? 0xC then 8 else if Z.land f 0xf =? 0x04 then 4 else Z.shiftr (Z.land f 0xf) 2 + 2).
Proof.
  destruct (_ =? _); [lia |]. destruct (_ =? _); [lia |].
  assert (0 <= Z.shiftr (Z.land f 15) 2) by (apply Z.shiftr_nonneg; apply Z.land_nonneg; right; discriminate). lia.
Qed.

Lemma audio_linear f channels s1 s2 :
  size_for_audio_format f channels (s1 + s2) = size_for_audio_format f channels s1 + size_for_audio_format f channels s2.
Proof. unfold size_for_audio_format. destruct (_ =? _); [reflexivity |]. cbv zeta. ring. Qed.

Lemma three_mono a b s1 s2 d : 0 <= a <= b -> 0 <= s1 <= s2 -> 0 < d -> 0 <= a * s1 * d <= b * s2 * d.
Proof.
  intros Hab Hs Hd. assert (0 <= a * s1) by (apply Z.mul_nonneg_nonneg; lia).
  assert (a * s1 <= b * s2) by (apply Z.mul_le_mono_nonneg; lia).
  split; [apply Z.mul_nonneg_nonneg; lia | apply Z.mul_le_mono_nonneg_r; lia].
Qed.

Lemma audio_monotone f c1 c2 s1 s2 : 0 <= c1 <= c2 -> 0 <= s1 <= s2 ->
  0 <= size_for_audio_format f c1 s1 <= size_for_audio_format f c2 s2.
Proof.
  intros Hc Hs. unfold size_for_audio_format. destruct (Z.land f 512 =? 512); [lia |]. cbv zeta.
  pose proof (audio_depth_pos f) as Hd.
  match goal with |- context [if Z.land f 12 =? 12 then ?a else ?b] => set (d := if Z.land f 12 =? 12 then a else b) in * end.
  clearbody d. destruct (Z.land f 3 =? 1).
  - assert (0 <= (c1 + 1) / 2 * 2 <= (c2 + 1) / 2 * 2) by lia.
    apply three_mono; lia.
  - apply three_mono; lia.
Qed.

(** Format numbers. *)
Lemma in_member l v : member l v = true <-> In v l.
Proof.
  unfold member. rewrite existsb_exists. split.
  - intros (x & Hx & E). apply Z.eqb_eq in E. subst. exact Hx.
  - intros H. exists v. split; [exact H | apply Z.eqb_refl].
Qed.

Lemma planar_numbers_facts :
  forallb (fun c => forallb (fun d =>
    match COG_PLANAR_FORMAT c d with
    | Ok f => (H_SHIFT f =? fst (subsampling c)) && (V_SHIFT f =? snd (subsampling c)) && (ACTIVE_BITS f =? d) &&
        eqb (IS_PLANAR_RGB f) (match c with CRGB => true | _ => false end) && IS_PLANAR f && negb (IS_PACKED f) &&
        negb (IS_COMPRESSED f) && negb (IS_ALPHA f) &&
        (d <=? 8 * BYTES_PER_VALUE f) && ((BYTES_PER_VALUE f =? 1) || (4 * BYTES_PER_VALUE f <? d)) && member [1; 2; 4] (BYTES_PER_VALUE f) &&
        member frame_formats f
    | Err _ => false end) planar_depths) [YUV_444; YUV_422; YUV_420; CRGB] = true.
Proof. vm_compute. reflexivity. Qed.

Lemma planar_number_ok c d : In d planar_depths ->
  exists f, COG_PLANAR_FORMAT c d = Ok f /\ In f frame_formats /\
    (H_SHIFT f, V_SHIFT f) = subsampling c /\ ACTIVE_BITS f = d /\
    IS_PLANAR_RGB f = (match c with CRGB => true | _ => false end) /\ IS_PLANAR f = true /\ IS_PACKED f = false /\
    IS_COMPRESSED f = false /\ IS_ALPHA f = false /\
    In (BYTES_PER_VALUE f) [1; 2; 4] /\ d <= 8 * BYTES_PER_VALUE f /\
    (forall n, In n [1; 2; 4] -> d <= 8 * n -> BYTES_PER_VALUE f <= n).
Proof.
  intros Hd. pose proof planar_numbers_facts as H. rewrite forallb_forall in H.
  assert (Hc : In c [YUV_444; YUV_422; YUV_420; CRGB]) by (destruct c; cbn [In]; tauto).
  specialize (H c Hc). cbv beta in H. rewrite forallb_forall in H. specialize (H d Hd). cbv beta in H.
  destruct (COG_PLANAR_FORMAT c d) as [f |]; [| discriminate].
  exists f. repeat (apply andb_true_iff in H; destruct H as [H ?]).
  rewrite !in_member in *. repeat match goal with E : negb _ = true |- _ => apply negb_true_iff in E end.
  split; [reflexivity |]. split; [assumption |].
  split. { destruct (subsampling c); cbn [fst snd] in *. f_equal; lia. }
  split; [lia |]. split. { apply eqb_prop. assumption. }
  repeat split; try assumption; try lia.
  intros n Hn Hdn. cbn [In] in *. lia.
Qed.

Lemma planar_number_none c d : ~ In d planar_depths -> COG_PLANAR_FORMAT c d = Err EValue.
Proof.
  intros Hd. cbn [In planar_depths] in Hd. unfold COG_PLANAR_FORMAT, to_enum.
  assert (Hsh : Z.shiftl d 10 = d * 1024) by (rewrite Z.shiftl_mul_pow2 by lia; reflexivity).
  rewrite Hsh.
  assert (N : forall k, In k [0; 4; 8] -> (k = 0 -> d <= 8) -> (k = 8 -> 16 < d) -> (k = 4 -> 8 < d <= 16) ->
    member frame_formats (k + chroma_val c + d * 1024) = false).
  { intros k Hk H0 H8 H4. destruct (member _ _) eqn:E; [| reflexivity]. exfalso. apply in_member in E.
    assert (Hv : In (chroma_val c) [0; 1; 3; 16]) by (destruct c; cbn [In chroma_val]; tauto).
    cbn [In] in Hk, Hv. generalize dependent (chroma_val c). intros v E Hv.
    unfold frame_formats in E. cbn [In] in E.
    repeat (destruct E as [E | E];
      [match type of E with ?a = _ => let b := eval vm_compute in a in change a with b in E end; lia |]).
    destruct E. }
  destruct (Z.leb_spec d 8); [rewrite N; [reflexivity | cbn [In]; tauto | lia | lia | lia] |].
  destruct (Z.gtb_spec d 16).
  - rewrite N; [reflexivity | cbn [In]; tauto | lia | lia | lia].
  - rewrite N; [reflexivity | cbn [In]; tauto | lia | lia | lia].
Qed.

Lemma planar_number_inj c d c' d' f : COG_PLANAR_FORMAT c d = Ok f -> COG_PLANAR_FORMAT c' d' = Ok f -> c = c' /\ d = d'.
Proof.
  intros H H'.
  assert (Hd : In d planar_depths) by (destruct (in_dec Z.eq_dec d planar_depths) as [i | n]; [exact i | rewrite (planar_number_none c d n) in H; discriminate]).
  assert (Hd' : In d' planar_depths) by (destruct (in_dec Z.eq_dec d' planar_depths) as [i | n]; [exact i | rewrite (planar_number_none c' d' n) in H'; discriminate]).
  destruct (planar_number_ok c d Hd) as (f1 & E1 & _ & A1 & B1 & C1 & _). rewrite H in E1. injection E1 as <-.
  destruct (planar_number_ok c' d' Hd') as (f2 & E2 & _ & A2 & B2 & C2 & _). rewrite H' in E2. injection E2 as <-.
  split; [| lia]. rewrite A1 in A2. rewrite C1 in C2. destruct c, c'; cbn [subsampling] in A2; congruence.
Qed.
