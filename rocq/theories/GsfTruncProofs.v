(** Decoding truncated files. *)
From Verif Require Import Base BaseProofs Utf8 Utf8Proofs GsfPrim GsfPrimProofs GsfBlock GsfBlockProofs
  GsfDecode CogEnums GsfEncode GsfSpec GsfCodecProofs GsfFileSpec GsfTermProofs GsfFileProofs GsfFileFacts.
From Coq Require Import ZifyBool ZifyNat.
Ltac Zify.zify_post_hook ::= Z.div_mod_to_equations.

(** The file cut after [n] bytes. *)
Definition cut (n : Z) (f : file) : file := mkFile (zfirst n (f_data f)) (f_base f) (f_strict f) (f_fwd f).

Definition same_or_eof {A} (r r' : res A) : Prop := r' = r \/ r' = Err EEof \/ r' = Err EFuel.

(** Whatever the reader returns on the whole input, it returns the same or raises EOFError on a prefix of it. *)
Definition Cut {A} (m : rd A) : Prop :=
  forall f n p v q, f_fwd f = false -> 0 <= p -> m f p = Ok (v, q) -> same_or_eof (Ok (v, q)) (m (cut n f) p).

Definition TG {A} (m : rd A) : Prop := Good m /\ Cut m.

Lemma zfirst_skip_cut n k p (d : bytes) : 0 <= p -> 0 <= k -> zlen (zfirst k (zskip p d)) = k ->
  zfirst k (zskip p (zfirst n d)) = zfirst k (zskip p d) \/ zlen (zfirst k (zskip p (zfirst n d))) < k.
Proof.
  intros Hp Hk HL. destruct (Z.eq_dec k 0) as [->|K].
  { left. rewrite !zfirst_firstn. reflexivity. }
  destruct (Z.le_gt_cases (p + k) n) as [L|L].
  - left. rewrite !zfirst_firstn, !zskip_skipn. rewrite skipn_firstn_comm, firstn_firstn. f_equal. lia.
  - right. rewrite !zfirst_firstn, !zskip_skipn. unfold zlen.
    rewrite firstn_length, skipn_length, firstn_length. lia.
Qed.

Lemma fread_cut n k f p d q : 0 <= p -> 0 <= k -> fread k f p = Ok (d, q) -> zlen d = k ->
  fread k (cut n f) p = Ok (d, q) \/
  fread k (cut n f) p = Err EEof \/
  exists d', fread k (cut n f) p = Ok (d', p + zlen d') /\ zlen d' < k.
Proof.
  intros Hp Hk H HL. unfold fread in *. unfold cut. cbn [f_data f_strict].
  destruct (f_strict f) eqn:ES; cbn [andb] in *.
  - destruct (zlen (zfirst k (zskip p (f_data f))) <? k) eqn:E1; [discriminate|]. injection H as <- <-.
    destruct (zfirst_skip_cut n k p (f_data f) Hp Hk HL) as [->|L].
    + rewrite E1. left. reflexivity.
    + replace (_ <? k) with true by lia. right; left; reflexivity.
  - injection H as <- <-.
    destruct (zfirst_skip_cut n k p (f_data f) Hp Hk HL) as [->|L]; [left; reflexivity|].
    right; right. eexists. split; [reflexivity|exact L].
Qed.

Lemma uint_cut n k f p v q : 0 <= p -> 0 <= k -> read_uint k f p = Ok (v, q) ->
  same_or_eof (Ok (v, q)) (read_uint k (cut n f) p).
Proof.
  intros Hp Hk H. unfold read_uint, bind in *. destruct (fread k f p) as [[d r]|] eqn:E; [|discriminate].
  destruct (zlen d =? k) eqn:EL; [|discriminate].
  destruct (fread_cut n k f p d r Hp Hk E ltac:(lia)) as [->|[->|(d' & -> & L)]].
  - rewrite EL. left. exact H.
  - right; left; reflexivity.
  - replace (zlen d' =? k) with false by lia. right; left; reflexivity.
Qed.

Lemma string_cut n k f p v q : 0 <= p -> 0 <= k -> read_string k f p = Ok (v, q) ->
  same_or_eof (Ok (v, q)) (read_string k (cut n f) p).
Proof.
  intros Hp Hk H. unfold read_string, bind in *. destruct (fread k f p) as [[d r]|] eqn:E; [|discriminate].
  destruct (zlen d =? k) eqn:EL; [|discriminate].
  destruct (fread_cut n k f p d r Hp Hk E ltac:(lia)) as [->|[->|(d' & -> & L)]].
  - rewrite EL. left. destruct (utf8_dec d); [exact H|discriminate].
  - right; left; reflexivity.
  - replace (zlen d' =? k) with false by lia. right; left; reflexivity.
Qed.

Lemma tag_size_cut n f p v q : 0 <= p -> read_tag_size f p = Ok (v, q) ->
  same_or_eof (Ok (v, q)) (read_tag_size (cut n f) p).
Proof.
  intros Hp H. unfold read_tag_size, read_tag, bind in *.
  destruct (read_string 4 f p) as [[t r]|] eqn:E; [|discriminate].
  pose proof (read_string_pos 4 f p t r ltac:(lia) Hp E) as [-> _].
  destruct (string_cut n 4 f p t (p + 4) Hp ltac:(lia) E) as [->|[->| ->]]; [|right; left; reflexivity|right; right; reflexivity].
  destruct (zlist_eqb t T_SSBB).
  - destruct (read_string 4 f (p + 4)) as [[g r]|] eqn:E2; [|discriminate].
    destruct (string_cut n 4 f (p + 4) g r ltac:(lia) ltac:(lia) E2) as [->|[->| ->]];
      [|right; left; reflexivity|right; right; reflexivity].
    destruct (zlist_eqb g T_grsg); [left; exact H|discriminate].
  - destruct (read_uint 4 f (p + 4)) as [[g r]|] eqn:E2; [|discriminate].
    destruct (uint_cut n 4 f (p + 4) g r ltac:(lia) ltac:(lia) E2) as [->|[->| ->]];
      [left; exact H|right; left; reflexivity|right; right; reflexivity].
Qed.

Lemma enter_loop_cut n want rs f : forall fuel fuel' p v q, 0 <= p ->
  enter_loop fuel want rs (f_base f + p) f p = Ok (v, q) ->
  same_or_eof (Ok (v, q)) (enter_loop fuel' want rs (f_base f + p) (cut n f) p).
Proof.
  induction fuel as [|k IH]; intros fuel' p v q Hp H; [discriminate|].
  destruct fuel' as [|k']; [right; right; reflexivity|]. cbn [enter_loop] in *. unfold bind at 1 in H. unfold bind at 1.
  pose proof (read_tag_size_good f p Hp) as G.
  destruct (read_tag_size f p) as [[[tag size] r]|e] eqn:E; [|discriminate]. destruct G as [-> _].
  destruct (tag_size_cut n f p _ _ Hp E) as [->|[->| ->]]; [|right; left; reflexivity|right; right; reflexivity].
  destruct want as [w|]; [|left; exact H].
  destruct (zlist_eqb tag w); [left; exact H|]. destruct rs; [discriminate|].
  unfold bind, fseek, base_tell in *. change (f_base (cut n f)) with (f_base f). change (f_fwd (cut n f)) with (f_fwd f).
  destruct (f_fwd f && _); [discriminate|].
  apply IH; [|exact H]. unfold actual_size. lia.
Qed.

Lemma enter_cut n want rs f p v q : 0 <= p -> enter want rs f p = Ok (v, q) ->
  same_or_eof (Ok (v, q)) (enter want rs (cut n f) p).
Proof. intros Hp H. unfold enter, bind, base_tell in *. exact (enter_loop_cut n want rs f _ (fuel_of (cut n f)) p v q Hp H). Qed.

(** ---------------------------------------------------------------- readers inside a block copied to memory *)

Lemma TG_ret {A} (a : A) : TG (ret a).
Proof. split; [apply Good_ret|]. intros f n p v q _ _ H. left. exact H. Qed.

Lemma TG_fail {A} e : e <> EFuel -> TG (@fail A e).
Proof. intros He. split; [now apply Good_fail|]. intros f n p v q _ _ H. discriminate. Qed.

Lemma TG_bind {A B} (m : rd A) (k : A -> rd B) : TG m -> (forall a, TG (k a)) -> TG (bind m k).
Proof.
  intros [G1 C1] HK. split; [apply Good_bind; [assumption|intros a; apply HK]|].
  intros f n p v q Hf Hp H. unfold bind in *. destruct (m f p) as [[a r]|] eqn:E; [|discriminate].
  pose proof (G1 f p Hp) as G. rewrite E in G.
  destruct (C1 f n p a r Hf Hp E) as [->|[->| ->]]; [|right; left; reflexivity|right; right; reflexivity].
  apply (proj2 (HK a)); [assumption|lia|assumption].
Qed.

Lemma TG_uint k : 0 <= k -> TG (read_uint k).
Proof. intros Hk. split; [apply Good_uint|]. intros f n p v q _ Hp H. now apply uint_cut. Qed.
Lemma TG_string k : 0 <= k -> TG (read_string k).
Proof. intros Hk. split; [apply Good_string|]. intros f n p v q _ Hp H. now apply string_cut. Qed.

Lemma TG_uuid : TG read_uuid.
Proof.
  split; [apply Good_uuid|]. intros f n p v q _ Hp H. unfold read_uuid, bind in *.
  destruct (fread 16 f p) as [[d r]|] eqn:E; [|discriminate].
  destruct (zlen d =? 16) eqn:EL; [|discriminate].
  destruct (fread_cut n 16 f p d r Hp ltac:(lia) E ltac:(lia)) as [->|[->|(d' & -> & L)]].
  - rewrite EL. left. exact H.
  - right; left; reflexivity.
  - replace (zlen d' =? 16) with false by lia. right; left; reflexivity.
Qed.

Lemma TG_if {A} (c : bool) (m n : rd A) : TG m -> TG n -> TG (if c then m else n).
Proof. destruct c; auto. Qed.

Lemma TG_fskip k : 0 <= k -> TG (fskip k).
Proof. intros Hk. split; [now apply Good_fskip|]. intros f n p v q _ _ H. left. exact H. Qed.

Ltac tg :=
  repeat first
    [ apply TG_ret | apply TG_uint; lia | apply TG_string; lia | apply TG_uuid | apply TG_fail; discriminate
    | apply TG_fskip; lia | assumption
    | match goal with |- TG (bind _ _) => apply TG_bind; [|intros ?] end
    | match goal with |- TG (if _ then _ else _) => apply TG_if end ].

Lemma TG_repeatm {A} k (m : rd A) : TG m -> TG (repeatm k m).
Proof. intros H; induction k; cbn [repeatm]; tg. Qed.

Lemma TG_has_child b : TG (has_child b).
Proof.
  split; [apply Good_has_child|]. intros f n p v q _ _ H. left. symmetry. rewrite <- H.
  unfold has_child, get_remaining, bind. change (f_base (cut n f)) with (f_base f).
  destruct (_ >=? 8); [reflexivity|]. destruct (negb _); reflexivity.
Qed.

Lemma TG_with_block {A} want rs (body : blk -> rd A) : (forall b, TG (body b)) -> TG (with_block want rs body).
Proof.
  intros HB. split; [apply Good_with_block; intros b; apply HB|].
  intros f n p v q Hf Hp H. unfold with_block, bind in *.
  pose proof (enter_good want rs f p Hp) as G.
  destruct (enter want rs f p) as [[b r]|] eqn:E; [|discriminate]. destruct G as (G1 & G2 & G3).
  destruct (enter_cut n want rs f p b r Hp E) as [->|[->| ->]]; [|right; left; reflexivity|right; right; reflexivity].
  destruct (body b f r) as [[a t]|] eqn:E2; [|discriminate].
  destruct (proj2 (HB b) f n r a t Hf ltac:(lia) E2) as [->|[->| ->]];
    [|right; left; reflexivity|right; right; reflexivity].
  left. exact H.
Qed.

Lemma children_loop_cut {S : Type} b (step : blk -> S -> rd S) f n : (forall c s, TG (step c s)) -> f_fwd f = false ->
  forall fuel fuel' s p v q, 0 <= p -> children_loop fuel b step s f p = Ok (v, q) ->
  same_or_eof (Ok (v, q)) (children_loop fuel' b step s (cut n f) p).
Proof.
  intros HS Hf. induction fuel as [|k IH]; intros fuel' s p v q Hp H; [discriminate|].
  destruct fuel' as [|k']; [right; right; reflexivity|]. cbn [children_loop] in *. unfold bind in *.
  pose proof (Good_has_child b f p Hp) as G.
  destruct (has_child b f p) as [[h r]|] eqn:E; [|discriminate].
  destruct (proj2 (TG_has_child b) f n p h r Hf Hp E) as [->|[->| ->]];
    [|right; left; reflexivity|right; right; reflexivity].
  destruct h; [|left; exact H].
  pose proof (TG_with_block None false (fun c => step c s) (fun c => HS c s)) as [GW CW].
  pose proof (GW f r ltac:(lia)) as G2.
  destruct (with_block None false (fun c => step c s) f r) as [[s' t]|] eqn:E2; [|discriminate].
  destruct (CW f n r s' t Hf ltac:(lia) E2) as [->|[->| ->]]; [|right; left; reflexivity|right; right; reflexivity].
  apply IH; [lia|exact H].
Qed.

Lemma TG_children {S : Type} b (step : blk -> S -> rd S) s : (forall c s, TG (step c s)) -> TG (children b step s).
Proof.
  intros HS. split; [apply Good_children; intros c s'; apply HS|].
  intros f n p v q Hf Hp H. unfold children in *. eapply children_loop_cut; eassumption.
Qed.

Lemma TG_decode_comps n : forall off, TG (decode_comps n off).
Proof. induction n as [|n IH]; intros off; cbn [decode_comps]; tg. apply IH. Qed.

Ltac tgd := unfold read_bool, read_optional_bool, read_sint, read_optional_sint, read_rational, read_timestamp,
  read_timestamp_v7; repeat (tg || unfold read_bool || apply TG_repeatm).

Lemma TG_decode_gbhd major b : TG (decode_gbhd major b).
Proof.
  unfold decode_gbhd. apply TG_bind; [unfold decode_gbhd_fixed; tgd|]. intros m.
  apply TG_children. intros c s. unfold gbhd_child, decode_tils, decode_til, decode_vghd, decode_cghd,
    decode_aghd, decode_cahd, decode_key_temporal. tgd.
  - apply TG_children. intros c' s'. unfold vghd_child. tgd. apply TG_decode_comps.
  - apply TG_children. intros c' s'. unfold cghd_child. tgd.
Qed.

(** ---------------------------------------------------------------- a truncated grain *)

(** The steps of reading a whole grain. *)
Lemma grain_steps major f p rest local g pl off :
  At f p (enc_block T_grai pl ++ rest) -> u16 local -> grain_ok g -> small_payload pl ->
  GraiPayload major local g pl off ->
  exists gb ex,
    let b := mkBlk (f_base f + p) (8 + zlen pl) T_grai in
    let q := p + 10 + 8 + zlen gb in
    enter None false f p = Ok (b, p + 8) /\
    read_uint 2 f (p + 8) = Ok (local, p + 10) /\
    At f (p + 10) (enc_block T_gbhd gb ++ ex ++ rest) /\ small_payload gb /\
    PB T_gbhd (fun b => decode_gbhd major b) gb (meta_of major g) /\
    0 <= zlen gb /\ q + 8 <= p + 8 + zlen pl /\
    enter (Some T_grdt) false f q =
      Ok (mkBlk (f_base f + p + off) (8 + zlen (opt_bytes (g_data g))) T_grdt, p + 8 + off) /\
    q + 8 <= p + 8 + off /\ p + 8 + off + zlen (opt_bytes (g_data g)) <= p + 8 + zlen pl /\
    exists r2, At f (p + 8 + off) (opt_bytes (g_data g) ++ r2).
Proof.
  intros HA Hl Hg Hs HP.
  destruct (GraiPayload_parts _ _ _ _ _ HP Hs) as (gb & extra & trail & HG & HU & Epl & Eoff & Hsg & Hse & Hsd).
  set (d := opt_bytes (g_data g)) in *.
  exists gb, (blocks extra ++ enc_block T_grdt d ++ trail). cbv zeta.
  pose proof (zlen_nonneg gb). pose proof (zlen_nonneg (blocks extra)). pose proof (zlen_nonneg trail).
  pose proof (zlen_nonneg d). rewrite enc_block_len in Eoff by reflexivity.
  assert (zlen pl = 2 + (8 + zlen gb) + zlen (blocks extra) + (8 + zlen d) + zlen trail) as HL.
  { rewrite Epl, !zlen_app, enc_uint_len, !enc_block_len by reflexivity. lia. }
  assert (At f (p + 8) (pl ++ rest)) as HA'.
  { unfold enc_block in HA. rewrite app_assoc, <- app_assoc in HA. apply At_advance in HA.
    rewrite zlen_app, enc_uint_len in HA. exact HA. }
  rewrite Epl in HA' at 1. rewrite <- !app_assoc in HA'.
  split; [exact (enter_At _ _ _ _ _ _ None false HA raw_grai Hs (or_introl eq_refl))|].
  split; [rewrite (Parses_uint2 local Hl f _ _ HA'), enc_uint_len; do 2 f_equal; lia|].
  apply At_advance in HA'. rewrite enc_uint_len in HA'. replace (p + 8 + Z.of_nat 2) with (p + 10) in HA' by lia.
  split; [rewrite <- !app_assoc; exact HA'|]. split; [exact Hsg|].
  split; [exact (PBx_PB _ _ _ _ (PBx_gbhd _ _ _ Hg HG Hsg))|].
  split; [lia|]. split; [lia|].
  pose proof HA' as HA2. apply At_advance in HA2. rewrite enc_block_len in HA2 by reflexivity.
  replace (p + 10 + (8 + zlen gb)) with (p + 10 + 8 + zlen gb) in HA2 by lia.
  split.
  { rewrite (enter_skip T_grdt f _ extra T_grdt d _ HU Hse HA2 raw_grdt Hsd). do 2 f_equal; [|lia]. f_equal; lia. }
  split; [lia|]. split; [lia|]. apply At_advance in HA2. unfold enc_block in HA2. rewrite <- !app_assoc in HA2.
  rewrite app_assoc in HA2. apply At_advance in HA2. rewrite zlen_app, enc_uint_len in HA2. change (zlen T_grdt) with 4 in HA2.
  exists (trail ++ rest). replace (p + 8 + off) with (p + 10 + 8 + zlen gb + zlen (blocks extra) + (4 + Z.of_nat 4)) by lia.
  exact HA2.
Qed.

(** A block body that is copied to memory before it is decoded. *)
Lemma with_remaining_cut {A} n want rs (inner : blk -> rd A) f p t pl rest tag v :
  At f p (enc_block t pl ++ rest) -> raw_tag t tag -> small_payload pl -> want = Some tag ->
  (forall b, TG (inner b)) -> PB tag inner pl v ->
  same_or_eof (Ok (v, p + zlen (enc_block t pl))) (with_block want rs (fun b => on_remaining b inner) (cut n f) p).
Proof.
  intros HA Ht Hs -> HI HB. pose proof (zlen_nonneg pl) as Hn. pose proof (At_pos _ _ _ HA) as Hp.
  pose proof (enter_At _ _ _ _ _ _ (Some tag) rs HA Ht Hs (or_intror eq_refl)) as E.
  unfold with_block, bind.
  destruct (enter_cut n (Some tag) rs f p _ _ Hp E) as [->|[->| ->]];
    [|right; left; reflexivity|right; right; reflexivity].
  set (b := mkBlk (f_base f + p) (8 + zlen pl) tag) in *.
  pose proof (raw_tag4 _ _ Ht) as H4.
  assert (At f (p + 8) (pl ++ rest)) as HA'.
  { unfold enc_block in HA. rewrite app_assoc, <- app_assoc in HA. apply At_advance in HA.
    rewrite zlen_app, enc_uint_len, H4 in HA. exact HA. }
  unfold on_remaining, read_remaining, bind, base_tell, get_remaining. change (f_base (cut n f)) with (f_base f).
  replace (b_start b + b_size b - (f_base f + (p + 8))) with (zlen pl) by (unfold b; cbn [b_start b_size]; lia).
  assert (exists q, inner b (mkFile pl (f_base f + (p + 8)) false false) 0 = Ok (v, q)) as (q0 & E0).
  { destruct (HB (mkFile pl (f_base f + (p + 8)) false false) 0 [] b) as (q & HQ & _).
    - rewrite app_nil_r. apply At_start.
    - unfold b. cbn [b_start b_size f_base]. lia.
    - reflexivity.
    - exists q. exact HQ. }
  assert (forall q, q <= p + 8 + zlen pl -> 
    exit_block b (cut n f) q = Ok (tt, p + zlen (enc_block t pl))) as HX.
  { intros q Hq. unfold exit_block, b. cbn [b_start b_size]. change (f_base (cut n f)) with (f_base f).
    rewrite enc_block_len by assumption. unfold actual_size.
    replace (f_fwd (cut n f) && _) with false; [do 2 f_equal; lia|].
    destruct (f_fwd (cut n f)); cbn [andb]; [lia|reflexivity]. }
  destruct (zlen pl >? 0) eqn:EZ.
  2:{ assert (pl = []) as -> by (apply zlen_0_nil; lia). unfold ret. rewrite E0. rewrite HX by lia.
      left. reflexivity. }
  pose proof (Parses_fread (zlen pl) pl eq_refl f _ _ HA') as PF.
  destruct (fread_cut n (zlen pl) f (p + 8) pl _ ltac:(lia) Hn PF eq_refl) as [->|[->|(d' & E1 & L)]].
  - unfold ret. rewrite E0. rewrite HX by lia. left. reflexivity.
  - right; left; reflexivity.
  - rewrite E1. unfold ret.
    assert (d' = zfirst (zlen d') pl) as Ed.
    { apply fread_inv in E1 as [_ ->]; [|lia]. cbn [cut f_data]. destruct HA' as [_ HD].
      destruct (Z.le_gt_cases (p + 8) n) as [C|C].
      - rewrite !zfirst_firstn, !zskip_skipn in *. rewrite skipn_firstn_comm, HD in *. unfold zlen.
        rewrite firstn_firstn, firstn_length, app_length.
        rewrite firstn_app. replace (Nat.min (Z.to_nat (Z.of_nat (length pl))) (Z.to_nat n - Z.to_nat (p + 8)) - length pl)%nat
          with 0%nat by lia. rewrite firstn_O, app_nil_r.
        f_equal. lia.
      - rewrite zskip_all; [rewrite !zfirst_firstn, !firstn_nil; reflexivity|].
        rewrite zfirst_firstn. unfold zlen. rewrite firstn_length. lia. }
    pose proof (zlen_nonneg d').
    destruct (proj2 (HI b) (mkFile pl (f_base f + (p + 8)) false false) (zlen d') 0 v q0 eq_refl ltac:(lia) E0) as [C|[C|C]];
      unfold cut in C; cbn [f_data f_base f_strict f_fwd] in C; rewrite <- Ed in C; rewrite C.
    + rewrite HX by lia. left. reflexivity.
    + right; left; reflexivity.
    + right; right; reflexivity.
Qed.

Lemma cut_At f n p l : At f p l -> p <= n -> At (cut n f) p (zfirst (n - p) l).
Proof.
  intros [Hp HD] Hn. split.
  - cbn [cut f_data]. rewrite zlen_zfirst by lia. lia.
  - cbn [cut f_data]. rewrite <- HD. rewrite !zfirst_firstn, !zskip_skipn, skipn_firstn_comm. f_equal. lia.
Qed.

Lemma slice_cut (data : bytes) n pos len : 0 <= pos -> 0 <= len ->
  exists t, slice data pos len = slice (zfirst n data) pos len ++ t.
Proof.
  intros Hp Hl. unfold slice. rewrite !zfirst_firstn, !zskip_skipn, skipn_firstn_comm, firstn_firstn.
  exists (skipn (Nat.min (Z.to_nat len) (Z.to_nat n - Z.to_nat pos)) (firstn (Z.to_nat len) (skipn (Z.to_nat pos) data))).
  rewrite <- (firstn_skipn (Nat.min (Z.to_nat len) (Z.to_nat n - Z.to_nat pos))
     (firstn (Z.to_nat len) (skipn (Z.to_nat pos) data))) at 1. f_equal.
  rewrite firstn_firstn. f_equal. lia.
Qed.

(** The payload of a grain in a truncated file. *)
Lemma decode_grdt_cut k n d f p rest b : At f p (d ++ rest) -> b_start b + b_size b = f_base f + p + zlen d ->
  f_base f = 0 ->
  decode_grdt k b (cut n f) p = Err EEof \/
  exists pay q t, decode_grdt k b (cut n f) p = Ok (pay, q) /\ p <= q <= p + zlen d /\
    d = loaded (zfirst n (f_data f)) pay ++ t.
Proof.
  intros HA HE Hb. pose proof (zlen_nonneg d) as Hn. pose proof (At_pos _ _ _ HA) as Hp.
  remember (decode_grdt k b (cut n f) p) as R eqn:ER.
  unfold decode_grdt, bind at 1, get_remaining at 1 in ER. change (f_base (cut n f)) with (f_base f) in ER.
  replace (b_start b + b_size b - (f_base f + p)) with (zlen d) in ER by lia.
  destruct (zlen d >? 0) eqn:EZ.
  2:{ right. rewrite ER. exists PNone, p, d. split; [reflexivity|]. split; [lia|reflexivity]. }
  assert (forall pos len, pos = p -> len = zlen d -> exists t, d = slice (zfirst n (f_data f)) pos len ++ t) as HS.
  { intros pos len -> ->. destruct (slice_cut (f_data f) n p (zlen d) Hp Hn) as [t Ht]. exists t.
    rewrite <- Ht. unfold slice. destruct HA as [_ ->]. rewrite zfirst_app. reflexivity. }
  destruct (HS p (zlen d) eq_refl eq_refl) as [t Ht].
  pose proof (Parses_fread (zlen d) d eq_refl f p rest HA) as PF.
  assert (fread (zlen d) (cut n f) p = Err EEof \/
          exists d' q, fread (zlen d) (cut n f) p = Ok (d', q) /\ p <= q <= p + zlen d /\ exists t, d = d' ++ t) as HF.
  { destruct (fread (zlen d) (cut n f) p) as [[d' q]|e] eqn:EF.
    - right. exists d', q. split; [reflexivity|]. apply fread_inv in EF as [-> ->]; [|lia].
      unfold cut. cbn [f_data].
      change (zfirst (zlen d) (zskip p (zfirst n (f_data f)))) with (slice (zfirst n (f_data f)) p (zlen d)).
      split; [|eauto]. pose proof (zlen_nonneg (slice (zfirst n (f_data f)) p (zlen d))).
      apply (f_equal zlen) in Ht. rewrite zlen_app in Ht. pose proof (zlen_nonneg t). lia.
    - left. f_equal. unfold fread in EF. destruct (f_strict (cut n f) && _); congruence. }
  destruct (k_back k && deferring (k_mode k)).
  { right. rewrite ER. destruct (k_lazy k).
    - eexists _, _, t. split; [reflexivity|]. split; [lia|exact Ht].
    - eexists _, _, t. split; [reflexivity|]. split; [lia|exact Ht]. }
  assert ((d0 <- fread (zlen d) ;; ret (PBytes d0)) (cut n f) p = Err EEof \/
          exists pay q t, (d0 <- fread (zlen d) ;; ret (PBytes d0)) (cut n f) p = Ok (pay, q) /\ p <= q <= p + zlen d /\
            d = loaded (zfirst n (f_data f)) pay ++ t) as HR.
  { unfold bind. destruct HF as [->|(d' & q & -> & Hq & t' & Ht')]; [left; reflexivity|].
    right. eexists _, _, t'. split; [reflexivity|]. split; [exact Hq|exact Ht']. }
  destruct (k_mode k); try (rewrite ER; exact HR).
  destruct (k_fwd k).
  - right. rewrite ER. exists PNone, (p + zlen d), d. split; [reflexivity|]. split; [lia|reflexivity].
  - rewrite ER. unfold bind. destruct HF as [->|(d' & q & -> & Hq & t' & Ht')]; [left; reflexivity|].
    right. exists PNone, q, d. split; [reflexivity|]. split; [exact Hq|reflexivity].
Qed.

Lemma same_or_eof_good {A} (m : rd A) f p r : Good m -> 0 <= p -> same_or_eof r (m f p) -> m f p = r \/ m f p = Err EEof.
Proof.
  intros G Hp [H|[H|H]]; auto. specialize (G f p Hp). rewrite H in G. congruence.
Qed.

Lemma bind_err {A B} (m : rd A) (k : A -> rd B) f p e : m f p = Err e -> bind m k f p = Err e.
Proof. intros H. unfold bind. rewrite H. reflexivity. Qed.

Lemma grain_turn_cut k major n f p rest local g pl off :
  At f p (enc_block T_grai pl ++ rest) -> u16 local -> grain_ok g -> small_payload pl ->
  GraiPayload major local g pl off -> f_base f = 0 ->
  grain_turn k major (cut n f) p = Err EEof \/
  (in_ids (k_ids k) local = false /\ grain_turn k major (cut n f) p = Ok (TCont false, p + zlen (enc_block T_grai pl))) \/
  exists pay t, in_ids (k_ids k) local = true /\
    grain_turn k major (cut n f) p = Ok (TYield (mkItem (meta_of major g) pay local), p + zlen (enc_block T_grai pl)) /\
    opt_bytes (g_data g) = loaded (zfirst n (f_data f)) pay ++ t.
Proof.
  intros HA Hl Hg Hs HP Hb. pose proof (At_pos _ _ _ HA) as Hp.
  destruct (grain_steps major f p rest local g pl off HA Hl Hg Hs HP)
    as (gb & ex & E1 & E2 & HAg & Hsg & HB & Hn & HL & E3 & HL2 & HL3 & r2 & HAd).
  set (b := mkBlk (f_base f + p) (8 + zlen pl) T_grai) in *.
  pose proof (zlen_nonneg (opt_bytes (g_data g))) as Hd.
  assert (forall q, q <= p + 8 + zlen pl -> exit_block b (cut n f) q = Ok (tt, p + zlen (enc_block T_grai pl))) as HX.
  { intros q Hq. unfold exit_block, b. cbn [b_start b_size]. change (f_base (cut n f)) with (f_base f).
    rewrite enc_block_len by reflexivity. unfold actual_size.
    replace (f_fwd (cut n f) && _) with false; [do 2 f_equal; lia|].
    destruct (f_fwd (cut n f)); cbn [andb]; [lia|reflexivity]. }
  pose proof (Good_with_block (Some T_gbhd) true (fun g => on_remaining g (decode_gbhd major))
    (fun g => Good_on_remaining g (decode_gbhd major) (Good_decode_gbhd major g))) as GG.
  assert (grain_turn k major (cut n f) p <> Err EFuel) as HF.
  { pose proof (grain_turn_good k major (cut n f) p Hp) as G. intros E. rewrite E in G. congruence. }
  remember (grain_turn k major (cut n f) p) as R eqn:ER.
  unfold grain_turn, with_block in ER.
  destruct (enter_cut n None false f p _ _ Hp E1) as [X|[X| X]];
    [rewrite (bind_run _ _ _ _ _ _ X) in ER|rewrite (bind_err _ _ _ _ _ X) in ER|rewrite (bind_err _ _ _ _ _ X) in ER];
    clear X; [|left; exact ER|congruence].
  unfold grain_body in ER. change (tag_is T_grai b) with true in ER. cbn [negb] in ER.
  replace (b_size b =? 0) with false in ER by (unfold b; cbn [b_size]; pose proof (zlen_nonneg pl); lia).
  rewrite bind_bind in ER.
  destruct (uint_cut n 2 f (p + 8) _ _ ltac:(lia) ltac:(lia) E2) as [X|[X| X]];
    [rewrite (bind_run _ _ _ _ _ _ X) in ER|rewrite (bind_err _ _ _ _ _ X) in ER|rewrite (bind_err _ _ _ _ _ X) in ER];
    clear X; [|left; exact ER|congruence].
  change (ids_ok (k_ids k) local) with (in_ids (k_ids k) local) in ER.
  destruct (in_ids (k_ids k) local) eqn:EI; cbn [negb] in ER.
  2:{ right; left. split; [reflexivity|]. rewrite ER. unfold ret, bind. rewrite HX by lia. reflexivity. }
  rewrite bind_bind in ER.
  pose proof (same_or_eof_good _ (cut n f) (p + 10) _ GG ltac:(lia)
    (with_remaining_cut n (Some T_gbhd) true (decode_gbhd major) f (p + 10) T_gbhd gb _ T_gbhd (meta_of major g)
       HAg raw_gbhd Hsg eq_refl (TG_decode_gbhd major) HB)) as [X|X];
    [rewrite (bind_run _ _ _ _ _ _ X) in ER|rewrite (bind_err _ _ _ _ _ X) in ER]; clear X; [|left; exact ER].
  rewrite enc_block_len in ER by reflexivity.
  replace (p + 10 + (8 + zlen gb)) with (p + 10 + 8 + zlen gb) in ER by lia.
  assert (has_child b (cut n f) (p + 10 + 8 + zlen gb) = Ok (true, p + 10 + 8 + zlen gb)) as EH.
  { unfold has_child, get_remaining, bind, b. cbn [b_start b_size]. change (f_base (cut n f)) with (f_base f).
    replace (f_base f + p + (8 + zlen pl) - (f_base f + (p + 10 + 8 + zlen gb)) >=? 8) with true by lia. reflexivity. }
  rewrite bind_bind, (bind_run _ _ _ _ _ _ EH) in ER. clear EH.
  rewrite ?bind_bind in ER. unfold with_block in ER. rewrite ?bind_bind in ER.
  destruct (enter_cut n (Some T_grdt) false f _ _ _ ltac:(exact (ltac:(lia) : 0 <= p + 10 + 8 + zlen gb)) E3) as [X|[X| X]];
    [rewrite (bind_run _ _ _ _ _ _ X) in ER|rewrite (bind_err _ _ _ _ _ X) in ER|rewrite (bind_err _ _ _ _ _ X) in ER];
    clear X; [|left; exact ER|congruence].
  set (bd := mkBlk (f_base f + p + off) (8 + zlen (opt_bytes (g_data g))) T_grdt) in *.
  rewrite ?bind_bind in ER.
  destruct (decode_grdt_cut k n (opt_bytes (g_data g)) f _ _ bd HAd ltac:(unfold bd; cbn [b_start b_size]; lia) Hb)
    as [X|(pay & q & t & X & Hq & Ht)];
    [rewrite (bind_err _ _ _ _ _ X) in ER|rewrite (bind_run _ _ _ _ _ _ X) in ER]; clear X; [left; exact ER|].
  right; right. exists pay, t. split; [reflexivity|]. split; [|exact Ht].
  rewrite ER. unfold bind, ret. unfold exit_block at 1. unfold bd. cbn [b_start b_size]. change (f_base (cut n f)) with (f_base f).
  replace (f_fwd (cut n f) && _) with false.
  2:{ destruct (f_fwd (cut n f)); cbn [andb]; [|reflexivity]. unfold actual_size. lia. }
  rewrite HX; [rewrite enc_block_len by reflexivity; reflexivity|]. unfold actual_size. lia.
Qed.

(** ---------------------------------------------------------------- the other pieces, cut *)

Lemma turn_noread_cut k major n f p b q r : 0 <= p -> enter None false f p = Ok (b, q) ->
  (forall f' p', grain_body k major b f' p' = Ok (r, p')) ->
  grain_turn k major (cut n f) p = grain_turn k major f p \/ grain_turn k major (cut n f) p = Err EEof.
Proof.
  intros Hp E HB. pose proof (grain_turn_good k major (cut n f) p Hp) as G.
  remember (grain_turn k major (cut n f) p) as R eqn:ER. unfold grain_turn, with_block in *.
  destruct (enter_cut n None false f p _ _ Hp E) as [X|[X| X]];
    [rewrite (bind_run _ _ _ _ _ _ X) in ER|rewrite (bind_err _ _ _ _ _ X) in ER|rewrite (bind_err _ _ _ _ _ X) in ER];
    [|right; exact ER|rewrite ER in G; congruence].
  left. rewrite ER, (bind_run _ _ _ _ _ _ E). unfold bind. rewrite !HB. reflexivity.
Qed.

Lemma enter_none f p v q : read_tag_size f p = Ok (v, q) ->
  enter None false f p = Ok (mkBlk (f_base f + p) (snd v) (fst v), q).
Proof.
  intros E. unfold enter, fuel_of. rewrite (bind_run base_tell _ f p (f_base f + p) p) by reflexivity.
  cbn [enter_loop]. rewrite (bind_run _ _ _ _ _ _ E). destruct v. reflexivity.
Qed.

Lemma grain_turn_other_cut k major n f p rest c : At f p (enc_blk c ++ rest) -> unknown_in [T_grai] c ->
  small_payload (snd c) ->
  grain_turn k major (cut n f) p = Ok (TCont false, p + zlen (enc_blk c)) \/
  grain_turn k major (cut n f) p = Err EEof.
Proof.
  intros HA HU Hs. rewrite <- (grain_turn_other k major f p rest c HA HU Hs).
  destruct HU as (tag & Ht & Hn). destruct c as [t pl]. cbn [fst snd] in *.
  change (enc_blk (t, pl)) with (enc_block t pl) in *.
  eapply turn_noread_cut; [exact (At_pos _ _ _ HA)|apply enter_none; eapply read_tag_size_At; eassumption|].
  intros f' p'. cbn [fst snd]. unfold grain_body.
  rewrite tag_is_false by (cbn [b_tag]; intros ->; apply Hn; left; reflexivity). cbn [negb].
  rewrite tag_is_false by (cbn [b_tag]; apply Ht). reflexivity.
Qed.

Lemma end_tag_size f p rest : At f p (piece_bytes PEnd ++ rest) -> read_tag_size f p = Ok ((T_grai, 0), p + 8).
Proof.
  intros HA. cbn [piece_bytes] in HA. rewrite <- app_assoc in HA.
  unfold read_tag_size, read_tag. pose proof (Parses_string_bytes 4 T_grai T_grai eq_refl eq_refl f p _ HA) as P.
  change (clean_string T_grai) with T_grai in P. rewrite (bind_run _ _ _ _ _ _ P). apply At_advance in HA.
  change (zlist_eqb T_grai T_SSBB) with false. cbv beta match.
  pose proof (Parses_uint4 0 ltac:(lia) f _ _ HA) as Q. rewrite (bind_run _ _ _ _ _ _ Q).
  unfold ret. rewrite enc_uint_len. change (zlen T_grai) with 4. do 2 f_equal. lia.
Qed.

Lemma grain_turn_end_cut k major n f p rest : At f p (piece_bytes PEnd ++ rest) ->
  grain_turn k major (cut n f) p = Ok (if k_concat k then TCont false else TBreak, p + 8) \/
  grain_turn k major (cut n f) p = Err EEof.
Proof.
  intros HA. rewrite <- (grain_turn_end k major f p rest HA).
  eapply turn_noread_cut with (r := if k_concat k then TCont false else TBreak);
    [exact (At_pos _ _ _ HA)|apply enter_none; eapply end_tag_size; eassumption|].
  intros f' p'. cbn [fst snd]. unfold grain_body. change (tag_is T_grai _) with true. cbn [negb b_size Z.eqb].
  destruct (k_concat k); reflexivity.
Qed.

(** One piece cut short at the end of the input. *)
Lemma run_cut k n f s p rest pc : f_base f = 0 -> At f p (piece_bytes pc ++ rest) ->
  Pieces (s_major s) [pc] -> is_file pc = false -> 0 <= n < p + zlen (piece_bytes pc) ->
  exists l, run k s false (cut n f) p = (l, s, Done) /\
    cut_grain (k_ids k) (s_major s) pc (map (view (zfirst n (f_data f))) l).
Proof.
  intros Hb HA HP HS Hn. pose proof (At_pos _ _ _ HA) as Hp.
  assert (forall q, q = p + zlen (piece_bytes pc) -> run k s false (cut n f) q = ([], s, Done)) as HE.
  { intros q ->. apply run_eof; [pose proof (zlen_nonneg (piece_bytes pc)); lia|].
    cbn [cut f_data]. rewrite zlen_zfirst by lia. lia. }
  rewrite run_unfold by assumption.
  destruct pc as [local g pl off|c| |]; cbn [piece_bytes] in *; [| | |discriminate]; inversion HP; subst.
  - destruct (grain_turn_cut k (s_major s) n f p rest local g pl off HA) as [X|[(EI & X)|(pay & t & EI & X & Ht)]];
      try assumption; rewrite X.
    + exists []. split; [reflexivity|]. constructor.
    + rewrite HE by reflexivity. exists []. split; [reflexivity|constructor].
    + rewrite HE by reflexivity. eexists. split; [reflexivity|]. cbn [prepend app map].
      unfold view at 1. cbn [i_meta i_data i_local]. eapply CG_part; [exact EI|].
      exists t. exact Ht.
  - destruct (grain_turn_other_cut k (s_major s) n f p rest c HA) as [X|X]; try assumption; rewrite X.
    + rewrite HE by reflexivity. exists []. split; [reflexivity|constructor].
    + exists []. split; [reflexivity|constructor].
  - destruct (grain_turn_end_cut k (s_major s) n f p rest HA) as [X|X]; try assumption; rewrite X.
    + destruct (k_concat k); [rewrite HE by reflexivity|]; exists []; (split; [reflexivity|constructor]).
    + exists []. split; [reflexivity|constructor].
Qed.

(** Where a cut falls. *)
Lemma split_at ps : forall n, 0 <= n < zlen (pieces_bytes ps) ->
  exists a pc b, ps = a ++ pc :: b /\ zlen (pieces_bytes a) <= n < zlen (pieces_bytes a) + zlen (piece_bytes pc).
Proof.
  induction ps as [|pc ps IH]; intros n Hn.
  - cbn in Hn. lia.
  - unfold pieces_bytes in Hn. cbn [flat_map] in Hn. fold (pieces_bytes ps) in Hn. rewrite zlen_app in Hn.
    destruct (Z.lt_ge_cases n (zlen (piece_bytes pc))) as [H|H].
    + exists [], pc, ps. split; [reflexivity|]. cbn [pieces_bytes flat_map]. rewrite (zlen_nil (A:=Z)). lia.
    + destruct (IH (n - zlen (piece_bytes pc)) ltac:(lia)) as (a & pc' & b & -> & Ha).
      exists (pc :: a), pc', b. split; [reflexivity|]. unfold pieces_bytes in *. cbn [flat_map]. rewrite zlen_app. lia.
Qed.

Lemma Pieces_split a : forall major b, Pieces major (a ++ b) -> Forall (fun pc => is_file pc = false) a ->
  Pieces major a /\ Pieces major b.
Proof.
  induction a as [|pc a IH]; intros major b H HF; [split; [constructor|exact H]|].
  cbn [app] in H. inversion HF; subst. inversion H; subst; try discriminate;
    (destruct (IH major b ltac:(assumption) ltac:(assumption)); split; [constructor; assumption|assumption]).
Qed.

Lemma single_pieces_final concat a : forall s, Forall (fun pc => is_file pc = false) a -> final_sess concat s a = s.
Proof.
  induction a as [|pc a IH]; intros s H; [reflexivity|]. inversion H; subst.
  destruct pc; cbn [final_sess]; try (apply IH; assumption); [|discriminate].
  destruct concat; [apply IH; assumption|reflexivity].
Qed.

(** A complete file cut anywhere after its header: the pieces that are still whole give their grains, the piece
    in which the cut falls gives nothing or part of its grain. *)
Theorem decode_truncated k x n strict fwd : gsf_ok x -> single x ->
  zlen (header_bytes (gf_major x) (gf_minor x) (gf_pre x) (gf_head_payload x)) <= n < zlen (gsf_bytes x) ->
  exists whole pc lost l extra,
    gf_pieces x = whole ++ pc :: lost /\
    zlen (header_bytes (gf_major x) (gf_minor x) (gf_pre x) (gf_head_payload x)) + zlen (pieces_bytes whole) <= n /\
    n < zlen (header_bytes (gf_major x) (gf_minor x) (gf_pre x) (gf_head_payload x)) +
        zlen (pieces_bytes (whole ++ [pc])) /\
    decode_file k (mkFile (zfirst n (gsf_bytes x)) 0 strict fwd) = Ok (gsf_sess x, (l, gsf_sess x, Done)) /\
    map (view (zfirst n (gsf_bytes x))) l =
    map (mode_data (k_mode k)) (select (k_ids k) (contents (k_concat k) (gf_major x) whole)) ++ extra /\
    cut_grain (k_ids k) (gf_major x) pc extra.
Proof.
  intros (HH & HP) HS Hn. unfold single, gsf_bytes, gsf_sess in *. destruct x as [major minor pre hpl h ps].
  cbn [gf_major gf_minor gf_pre gf_head_payload gf_head gf_pieces] in *.
  set (s := mkSess major minor (Some h)). set (hb := header_bytes major minor pre hpl) in *.
  pose proof (zlen_nonneg hb) as Hh. rewrite zlen_app in Hn.
  destruct (split_at ps (n - zlen hb) ltac:(lia)) as (a & pc & b & -> & Ha).
  pose proof (zlen_nonneg (pieces_bytes a)) as Hpa.
  apply Forall_app in HS as [HSa HSp]. inversion HSp as [|? ? Hpc HSb]; subst.
  destruct (Pieces_split a major (pc :: b) HP HSa) as (HPa & HPb).
  assert (Pieces major [pc]) as HPc by (inversion HPb; subst; constructor; try assumption; constructor).
  set (f := mkFile (hb ++ pieces_bytes (a ++ pc :: b)) 0 strict fwd).
  assert (zfirst n (f_data f) = hb ++ pieces_bytes a ++ zfirst (n - zlen hb - zlen (pieces_bytes a)) (pieces_bytes (pc :: b))) as ED.
  { unfold f. cbn [f_data]. rewrite pieces_bytes_app. rewrite zfirst_app_ge by lia. f_equal.
    rewrite zfirst_app_ge by lia. reflexivity. }
  set (r := zfirst (n - zlen hb - zlen (pieces_bytes a)) (pieces_bytes (pc :: b))) in *.
  destruct (Yields_total k a s (zlen hb)) as (l & s' & HY).
  destruct (Yields_views k (hb ++ pieces_bytes a) a s (zlen hb) l s' hb HY HPa eq_refl eq_refl) as (H1 & H2 & H3).
  rewrite single_pieces_final in H3 by assumption. subst s'.
  assert (map (view (zfirst n (f_data f))) l = map (view (hb ++ pieces_bytes a)) l) as HV.
  { eapply Yields_prefix_data; [eassumption|exact HPa|exact ED|reflexivity]. }
  change (hb ++ pieces_bytes (a ++ pc :: b)) with (f_data f).
  change (mkFile (zfirst n (f_data f)) 0 strict fwd) with (cut n f).
  assert (At (cut n f) 0 (hb ++ pieces_bytes a ++ r)) as HA.
  { unfold cut. rewrite ED. apply At_start. }
  assert (decode_file k (cut n f) = Ok (s, run k s false (cut n f) (zlen hb))) as E.
  { unfold decode_file. rewrite (file_headers_At (cut n f) 0 (pieces_bytes a ++ r) false major minor pre hpl h HH HA).
    fold hb s. replace (0 + zlen hb - 0) with (zlen hb) by lia. reflexivity. }
  apply At_advance in HA. rewrite Z.add_0_l in HA.
  rewrite (run_pieces k (cut n f) a s _ r l s HPa HY eq_refl HA) in E.
  assert (n < zlen hb + zlen (pieces_bytes (a ++ [pc]))) as HU.
  { rewrite pieces_bytes_app, zlen_app. unfold pieces_bytes at 2. cbn [flat_map]. rewrite app_nil_r. lia. }
  destruct (stops k a) eqn:ES.
  - exists a, pc, b, l, []. rewrite app_nil_r, HV, H1. split; [reflexivity|]. split; [lia|].
    split; [exact HU|]. split; [exact E|]. split; [reflexivity|constructor].
  - assert (At f (zlen hb + zlen (pieces_bytes a)) (piece_bytes pc ++ pieces_bytes b)) as HB.
    { assert (At f 0 (hb ++ pieces_bytes a ++ piece_bytes pc ++ pieces_bytes b)) as HB.
      { unfold f. rewrite pieces_bytes_app. unfold pieces_bytes at 2. cbn [flat_map]. apply At_start. }
      apply At_advance in HB. apply At_advance in HB. rewrite Z.add_0_l in HB. exact HB. }
    destruct (run_cut k n f s _ _ pc eq_refl HB HPc Hpc ltac:(lia)) as (l2 & E2 & HC).
    rewrite E2 in E. cbn [prepend] in E.
    exists a, pc, b, (l ++ l2), (map (view (zfirst n (f_data f))) l2).
    rewrite map_app, HV, H1. split; [reflexivity|]. split; [lia|].
    split; [exact HU|]. split; [exact E|]. split; [reflexivity|]. exact HC.
Qed.
