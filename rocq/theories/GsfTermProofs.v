(** Termination of the decoder on arbitrary bytes: the fuel given to every loop is always enough. *)
From Verif Require Import Base BaseProofs Utf8 GsfPrim GsfPrimProofs GsfBlock GsfDecode.
From Coq Require Import ZifyBool ZifyNat.
Ltac Zify.zify_post_hook ::= Z.div_mod_to_equations.

(** From any non-negative position the reader does not run out of fuel and never moves backwards. *)
Definition Good {A} (m : rd A) : Prop :=
  forall f p, 0 <= p -> match m f p with Ok (_, q) => p <= q | Err e => e <> EFuel end.

Lemma Good_ret {A} (a : A) : Good (ret a).
Proof. intros f p Hp. cbn. lia. Qed.

Lemma Good_fail {A} e : e <> EFuel -> Good (@fail A e).
Proof. intros H f p Hp. exact H. Qed.

Lemma Good_bind {A B} (m : rd A) (k : A -> rd B) : Good m -> (forall a, Good (k a)) -> Good (bind m k).
Proof.
  intros Hm Hk f p Hp. unfold bind. specialize (Hm f p Hp). destruct (m f p) as [[a q]|e]; [|exact Hm].
  specialize (Hk a f q ltac:(lia)). destruct (k a f q) as [[b r]|e]; [lia|exact Hk].
Qed.

Lemma Good_fread n : Good (fread n).
Proof.
  intros f p Hp. unfold fread. destruct (f_strict f && _); [discriminate|].
  pose proof (zlen_nonneg (zfirst n (zskip p (f_data f)))). lia.
Qed.

Lemma Good_if {A} (c : bool) (m n : rd A) : Good m -> Good n -> Good (if c then m else n).
Proof. destruct c; auto. Qed.

Lemma Good_uint n : Good (read_uint n).
Proof.
  unfold read_uint. apply Good_bind; [apply Good_fread|]. intros d. apply Good_if; [apply Good_ret|].
  apply Good_fail; discriminate.
Qed.

Ltac good :=
  repeat first
    [ apply Good_ret | apply Good_uint | apply Good_fread | apply Good_fail; discriminate | assumption
    | match goal with |- Good (bind _ _) => apply Good_bind; [|intros ?] end
    | match goal with |- Good (if _ then _ else _) => apply Good_if end ].

Lemma Good_bool : Good read_bool. Proof. unfold read_bool; good. Qed.
Lemma Good_optional_bool : Good read_optional_bool. Proof. unfold read_optional_bool; good. Qed.
Lemma Good_sint n : Good (read_sint n). Proof. unfold read_sint; good. Qed.
Lemma Good_optional_sint n v : Good (read_optional_sint n v). Proof. unfold read_optional_sint; good. Qed.
Lemma Good_string n : Good (read_string n).
Proof. unfold read_string; good. match goal with |- Good (match ?x with _ => _ end) => destruct x end; good. Qed.
Lemma Good_varstring : Good read_varstring.
Proof. unfold read_varstring; good. apply Good_string. Qed.
Lemma Good_uuid : Good read_uuid. Proof. unfold read_uuid; good. Qed.
Lemma Good_datetime : Good read_datetime.
Proof. unfold read_datetime. good; try apply Good_sint. Qed.
Lemma Good_ts_v7 : Good read_timestamp_v7. Proof. unfold read_timestamp_v7; good. Qed.
Lemma Good_ts : Good read_timestamp. Proof. unfold read_timestamp; good. apply Good_bool. Qed.
Lemma Good_rational : Good read_rational. Proof. unfold read_rational; good. Qed.
Lemma Good_varbytes : Good read_varbytes. Proof. unfold read_varbytes; good. Qed.
Lemma Good_repeatm {A} n (m : rd A) : Good m -> Good (repeatm n m).
Proof. intros H; induction n; cbn [repeatm]; good. Qed.
Lemma Good_fskip n : 0 <= n -> Good (fskip n). Proof. intros H f p Hp. cbn. lia. Qed.

(** ---------------------------------------------------------------- blocks *)

(** The tag and size: either an error other than running out of fuel, or eight existing bytes are consumed. *)
Lemma fread_inv n f p d q : 0 <= n -> fread n f p = Ok (d, q) -> q = p + zlen d /\ d = zfirst n (zskip p (f_data f)).
Proof. intros Hn H. unfold fread in H. destruct (f_strict f && _); [discriminate|]. now injection H as <- <-. Qed.

Lemma slice_len n p (d : bytes) : 0 < n -> 0 <= p -> zlen (zfirst n (zskip p d)) = n -> p + n <= zlen d.
Proof.
  intros Hn Hp H. rewrite zlen_zfirst in H by lia.
  destruct (Z.le_gt_cases p (zlen d)) as [L|L].
  - rewrite zlen_zskip in H by lia. lia.
  - rewrite zskip_all in H by lia. rewrite zlen_nil in H. lia.
Qed.

Lemma read_uint_inv n f p v q : 0 < n -> 0 <= p -> read_uint n f p = Ok (v, q) ->
  q = p + n /\ q <= zlen (f_data f) /\ v = le_dec (zfirst n (zskip p (f_data f))).
Proof.
  intros Hn Hp H. unfold read_uint, bind in H. destruct (fread n f p) as [[d r]|] eqn:E; [|discriminate].
  apply fread_inv in E as [-> ->]; [|lia].
  destruct (zlen _ =? n) eqn:EL; [|discriminate]. injection H as <- <-.
  assert (zlen (zfirst n (zskip p (f_data f))) = n) as HL by lia.
  pose proof (slice_len _ _ _ Hn Hp HL). rewrite HL. lia.
Qed.

Lemma read_string_pos n f p v q : 0 < n -> 0 <= p -> read_string n f p = Ok (v, q) ->
  q = p + n /\ q <= zlen (f_data f).
Proof.
  intros Hn Hp H. unfold read_string, bind in H. destruct (fread n f p) as [[d r]|] eqn:E; [|discriminate].
  apply fread_inv in E as [-> ->]; [|lia].
  destruct (zlen _ =? n) eqn:EL; [|discriminate].
  destruct (utf8_dec _); [|discriminate]. injection H as <- <-.
  assert (zlen (zfirst n (zskip p (f_data f))) = n) as HL by lia.
  pose proof (slice_len _ _ _ Hn Hp HL). lia.
Qed.

Lemma le_dec_nonneg l : Forall (fun b => 0 <= b) l -> 0 <= le_dec l.
Proof. intros H; induction H; cbn [le_dec]; lia. Qed.

Lemma read_tag_size_good f p : 0 <= p ->
  match read_tag_size f p with
  | Ok (_, q) => q = p + 8 /\ q <= zlen (f_data f)
  | Err e => e <> EFuel
  end.
Proof.
  intros Hp. unfold read_tag_size, read_tag, bind.
  pose proof (Good_string 4 f p Hp) as G1.
  destruct (read_string 4 f p) as [[tag q]|e] eqn:E; [|exact G1].
  apply read_string_pos in E as [-> HE]; [|lia|lia].
  destruct (zlist_eqb tag T_SSBB).
  - pose proof (Good_string 4 f (p + 4) ltac:(lia)) as G2.
    destruct (read_string 4 f (p + 4)) as [[g r]|e] eqn:E2; [|exact G2].
    apply read_string_pos in E2 as [-> HE2]; [|lia|lia].
    destruct (zlist_eqb g T_grsg); cbn; [lia|discriminate].
  - pose proof (Good_uint 4 f (p + 4) ltac:(lia)) as G2.
    destruct (read_uint 4 f (p + 4)) as [[g r]|e] eqn:E2; [|exact G2].
    apply read_uint_inv in E2 as (-> & HE2 & _); [|lia|lia]. cbn. lia.
Qed.

Lemma enter_loop_good want rs f : forall fuel p, 0 <= p -> (0 < fuel)%nat -> zlen (f_data f) - p < Z.of_nat fuel ->
  match enter_loop fuel want rs (f_base f + p) f p with
  | Ok (b, q) => f_base f + p <= b_start b /\ q = b_start b - f_base f + 8 /\ q <= zlen (f_data f)
  | Err e => e <> EFuel
  end.
Proof.
  induction fuel as [|k IH]; intros p Hp H0 Hf; [lia|]. cbn [enter_loop]. unfold bind at 1.
  pose proof (read_tag_size_good f p Hp) as G. destruct (read_tag_size f p) as [[[tag size] q]|e]; [|exact G].
  destruct G as [-> HL].
  assert (forall s, f_base f + p <= b_start (mkBlk (f_base f + p) s tag) /\
          p + 8 = b_start (mkBlk (f_base f + p) s tag) - f_base f + 8 /\ p + 8 <= zlen (f_data f)) as HR
    by (intros s; cbn [b_start]; lia).
  destruct want as [w|]; [|apply HR].
  destruct (zlist_eqb tag w); [apply HR|]. destruct rs; [discriminate|].
  unfold bind, fseek, base_tell.
  assert (8 <= actual_size size) by (unfold actual_size; lia).
  replace (f_fwd f && (f_base f + p + actual_size size - f_base f <? p + 8)) with false.
  2:{ destruct (f_fwd f); cbn [andb]; [|reflexivity]. lia. }
  set (p' := f_base f + p + actual_size size - f_base f).
  assert (p + 8 <= p') by (unfold p'; lia).
  specialize (IH p' ltac:(lia) ltac:(lia) ltac:(lia)).
  destruct (enter_loop k (Some w) false (f_base f + p') f p') as [[b q]|e]; [|exact IH]. lia.
Qed.

Lemma enter_good want rs f p : 0 <= p ->
  match enter want rs f p with
  | Ok (b, q) => f_base f + p <= b_start b /\ q = b_start b - f_base f + 8 /\ q <= zlen (f_data f)
  | Err e => e <> EFuel
  end.
Proof.
  intros Hp. unfold enter, bind, base_tell. apply enter_loop_good; [assumption|unfold fuel_of; lia|].
  unfold fuel_of, zlen. lia.
Qed.

(** Leaving a block: a block takes up at least eight existing bytes. *)
Lemma with_block_good {A} want rs (body : blk -> rd A) f p : (forall b, Good (body b)) -> 0 <= p ->
  match with_block want rs body f p with
  | Ok (_, q) => p + 8 <= q /\ p + 8 <= zlen (f_data f)
  | Err e => e <> EFuel
  end.
Proof.
  intros HB Hp. unfold with_block, bind. pose proof (enter_good want rs f p Hp) as G.
  destruct (enter want rs f p) as [[b q]|e]; [|exact G]. destruct G as (H1 & H2 & H3).
  specialize (HB b f q ltac:(lia)). destruct (body b f q) as [[a r]|e]; [|exact HB].
  unfold exit_block, ret, actual_size. destruct (f_fwd f && _); lia.
Qed.

Lemma Good_with_block {A} want rs (body : blk -> rd A) : (forall b, Good (body b)) -> Good (with_block want rs body).
Proof.
  intros HB f p Hp. pose proof (with_block_good want rs body f p HB Hp) as G.
  destruct (with_block want rs body f p) as [[a q]|e]; [lia|exact G].
Qed.

Lemma Good_has_child b : Good (has_child b).
Proof.
  unfold has_child. apply Good_bind; [intros f p Hp; cbn; lia|]. intros r. good.
Qed.

Lemma children_loop_good {S : Type} b (step : blk -> S -> rd S) f : (forall c s, Good (step c s)) ->
  forall fuel s p, 0 <= p -> (0 < fuel)%nat -> zlen (f_data f) - p < Z.of_nat fuel ->
  match children_loop fuel b step s f p with Ok (_, q) => p <= q | Err e => e <> EFuel end.
Proof.
  intros HS. induction fuel as [|k IH]; intros s p Hp H0 Hf; [lia|]. cbn [children_loop]. unfold bind at 1.
  pose proof (Good_has_child b f p Hp) as G. destruct (has_child b f p) as [[h q]|e] eqn:E; [|exact G].
  assert (q = p) as ->.
  { unfold has_child, bind, get_remaining in E.
    destruct (_ >=? 8); [now injection E|]. destruct (negb _); [discriminate|now injection E]. }
  destruct h; [|cbn; lia]. unfold bind.
  pose proof (with_block_good None false (fun c => step c s) f p (fun c => HS c s) Hp) as GW.
  destruct (with_block None false (fun c => step c s) f p) as [[s' q]|e]; [|exact GW].
  specialize (IH s' q ltac:(lia) ltac:(lia) ltac:(lia)).
  destruct (children_loop k b step s' f q) as [[s'' r]|e]; [lia|exact IH].
Qed.

Lemma Good_children {S : Type} b (step : blk -> S -> rd S) s : (forall c s, Good (step c s)) -> Good (children b step s).
Proof.
  intros HS f p Hp. unfold children. apply children_loop_good; [assumption|assumption|unfold fuel_of; lia|].
  unfold fuel_of, zlen. lia.
Qed.

Lemma Good_on_remaining {A} b (inner : blk -> rd A) : Good (inner b) -> Good (on_remaining b inner).
Proof.
  intros HI. unfold on_remaining. apply Good_bind.
  - unfold read_remaining. apply Good_bind; [intros f p Hp; cbn; lia|]. intros st.
    apply Good_bind; [intros f p Hp; cbn; lia|]. intros r. good.
  - intros [d st] f p Hp. specialize (HI (mkFile d st false false) 0 ltac:(lia)).
    destruct (inner b (mkFile d st false false) 0) as [[a q]|e]; [cbn; lia|exact HI].
Qed.

(** ---------------------------------------------------------------- decoder *)

Ltac goodd :=
  repeat first
    [ apply Good_ret | apply Good_uint | apply Good_sint | apply Good_fread | apply Good_fail; discriminate
    | apply Good_uuid | apply Good_string | apply Good_varstring | apply Good_bool | apply Good_optional_bool
    | apply Good_optional_sint | apply Good_rational | apply Good_ts | apply Good_ts_v7 | apply Good_varbytes
    | apply Good_datetime | apply Good_fskip; lia | apply Good_repeatm | assumption
    | match goal with |- Good (bind _ _) => apply Good_bind; [|intros ?] end
    | match goal with |- Good (if _ then _ else _) => apply Good_if end ].

Lemma Good_decode_head b : Good (decode_head b).
Proof.
  unfold decode_head. goodd. apply Good_children. intros c h. unfold head_child, decode_segm, decode_tag. goodd.
  apply Good_children. intros c' s. unfold segm_child, decode_flow, decode_tag. goodd.
  match goal with |- Good (match ?x with _ => _ end) => destruct x end; goodd.
Qed.

Lemma Good_decode_comps n : forall off, Good (decode_comps n off).
Proof. induction n as [|n IH]; intros off; cbn [decode_comps]; goodd. apply IH. Qed.

Lemma Good_decode_gbhd major b : Good (decode_gbhd major b).
Proof.
  unfold decode_gbhd. apply Good_bind; [unfold decode_gbhd_fixed; goodd|]. intros m.
  apply Good_children. intros c s. unfold gbhd_child, decode_tils, decode_til, decode_vghd, decode_cghd,
    decode_aghd, decode_cahd, decode_key_temporal. goodd.
  - apply Good_children. intros c' s'. unfold vghd_child. goodd. apply Good_decode_comps.
  - apply Good_children. intros c' s'. unfold cghd_child. goodd.
Qed.

Lemma Good_decode_grdt k b : Good (decode_grdt k b).
Proof.
  unfold decode_grdt. apply Good_bind; [intros f p Hp; cbn; lia|]. intros r.
  destruct (r >? 0) eqn:E; [|goodd]. apply Good_if; [intros f p Hp; cbn; lia|].
  destruct (k_mode k); goodd.
Qed.

Lemma Good_grain_body k major b : Good (grain_body k major b).
Proof.
  unfold grain_body. goodd.
  - apply Good_with_block. intros g. apply Good_on_remaining, Good_decode_gbhd.
  - apply Good_has_child.
  - apply Good_with_block. intros g. apply Good_decode_grdt.
Qed.

Lemma Good_file_headers known : Good (decode_file_headers known).
Proof.
  unfold decode_file_headers. apply Good_bind.
  - unfold decode_ssb_header. goodd.
  - intros [major minor]. goodd. intros f p Hp. unfold eof_to_decode.
    pose proof (Good_with_block (Some T_head) false (fun b => on_remaining b decode_head)
                  (fun b => Good_on_remaining b decode_head (Good_decode_head b)) f p Hp) as G.
    destruct (with_block _ _ _ f p) as [[a q]|[]]; try exact G; discriminate.
Qed.

Lemma grain_turn_good k major f p : 0 <= p ->
  match grain_turn k major f p with
  | Ok (_, q) => p + 8 <= q /\ p + 8 <= zlen (f_data f)
  | Err e => e <> EFuel
  end.
Proof. intros Hp. apply with_block_good; [|assumption]. intros b. apply Good_grain_body. Qed.

(** The main loop: never out of fuel, and at most one item per eight bytes of input. *)
Lemma grains_loop_good k f : forall fuel s hc p, 0 <= p -> (0 < fuel)%nat -> zlen (f_data f) - p < Z.of_nat fuel ->
  let '(l, _, o) := grains_loop fuel k s hc f p in
  o <> Raised EFuel /\ 8 * zlen l <= Z.max 0 (zlen (f_data f) - p).
Proof.
  induction fuel as [|n IH]; intros s hc p Hp H0 Hf; [lia|]. cbn [grains_loop].
  assert (match (if hc then decode_file_headers true f p else Ok (s, p)) with
          | Ok (_, q) => p <= q | Err e => e <> EFuel end) as GH.
  { destruct hc; [|lia]. apply (Good_file_headers true f p Hp). }
  destruct (if hc then decode_file_headers true f p else Ok (s, p)) as [[s' p']|e].
  2:{ destruct e; cbn; (split; [congruence|lia]). }
  pose proof (grain_turn_good k (s_major s') f p' ltac:(lia)) as GT.
  destruct (grain_turn k (s_major s') f p') as [[[c| |i] q]|e].
  - specialize (IH s' c q ltac:(lia) ltac:(lia) ltac:(lia)).
    destruct (grains_loop n k s' c f q) as [[l s''] o]. split; [tauto|lia].
  - split; [discriminate|cbn; lia].
  - specialize (IH s' false q ltac:(lia) ltac:(lia) ltac:(lia)).
    destruct (grains_loop n k s' false f q) as [[l s''] o]. rewrite zlen_cons. split; [tauto|lia].
  - destruct e; cbn; (split; [congruence|lia]).
Qed.

Theorem decode_file_terminates k f :
  match decode_file k f with
  | Ok (_, (l, _, o)) => o <> Raised EFuel /\ 8 * zlen l <= zlen (f_data f)
  | Err e => e <> EFuel
  end.
Proof.
  unfold decode_file. pose proof (Good_file_headers false f 0 ltac:(lia)) as G.
  destruct (decode_file_headers false f 0) as [[s p]|e]; [|exact G].
  pose proof (grains_loop_good k f (fuel_of f) s false p ltac:(lia) ltac:(unfold fuel_of; lia)
                ltac:(unfold fuel_of, zlen; lia)) as H.
  destruct (grains_loop (fuel_of f) k s false f p) as [[l s'] o].
  pose proof (zlen_nonneg (f_data f)). split; [tauto|lia].
Qed.

(** More fuel does not change the result. *)
Lemma grains_loop_fuel k f : forall n m s hc p, 0 <= p -> (0 < n)%nat -> zlen (f_data f) - p < Z.of_nat n ->
  (n <= m)%nat -> grains_loop m k s hc f p = grains_loop n k s hc f p.
Proof.
  induction n as [|n IH]; intros m s hc p Hp H0 Hf Hm; [lia|]. destruct m as [|m]; [lia|]. cbn [grains_loop].
  assert (match (if hc then decode_file_headers true f p else Ok (s, p)) with
          | Ok (_, q) => p <= q | Err e => e <> EFuel end) as GH.
  { destruct hc; [|lia]. apply (Good_file_headers true f p Hp). }
  destruct (if hc then decode_file_headers true f p else Ok (s, p)) as [[s' p']|e]; [|reflexivity].
  pose proof (grain_turn_good k (s_major s') f p' ltac:(lia)) as GT.
  destruct (grain_turn k (s_major s') f p') as [[[c| |i] q]|e]; try reflexivity.
  - apply IH; lia.
  - rewrite (IH m) by lia. reflexivity.
Qed.
