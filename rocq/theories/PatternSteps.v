From Coq Require Import Lia ZifyBool ZifyNat.
From Verif Require Import Base BaseProofs CogEnums VideoLayout LayoutSpec PatternTime Tone VideoPattern PatternSpec PatternTimeProofs ToneProofs VideoPatternFacts VideoPatternMore.

(** Slices with a step. *)
Theorem slice_step {A} k own (t : A) s e a b skip n :
  clock_ok k -> slow own -> as_ns k s = grid k own a -> as_ns k e = grid k own b -> (0 < skip)%nat -> (Z.to_nat (b - a) <= n)%nat ->
  getitem k own (still_get k own t) (KSlice (Some s) (Some e) (SInt (Z.of_nat skip))) n = Ok (GMany (still_grains k own t (every_nth skip 0 (between a b)), None)).
Proof.
  intros K S Ea Eb P Hn. assert (Ca := count_at_grid k own s a K S Ea). assert (Cb := count_at_grid k own e b K S Eb). unfold getitem. cbn [tr_start].
  rewrite still_skip; [|exact K|exact S|left; reflexivity|exact P|]; unfold first_count, end_count; rewrite Ca, Cb, !Z.add_0_r; [reflexivity|exact Hn].
Qed.
Lemma period_rate own ns : 0 < fst own -> 0 < snd own -> Z.gcd (fst own) (snd own) = 1 -> ns * fst own = second * snd own -> step_rate ns = Ok own.
Proof.
  destruct own as [p q]. cbn [fst snd]. intros P Q G E. unfold step_rate. assert (N : 0 < ns) by (unfold second in E; nia). replace (ns =? 0) with false by lia. f_equal. unfold fraction.
  change 1000000000 with second. assert (D : (q | ns)). { apply (Z.gauss q p ns); [exists second; lia|rewrite Z.gcd_comm; exact G]. }
  destruct D as [g D]. assert (X : second = g * p) by (subst ns; nia). assert (0 < g) by nia. assert (Y : Z.gcd second ns = g).
  { rewrite X, D, Z.gcd_mul_mono_l, G. lia. }
  rewrite Y, X, D. f_equal; [rewrite Z.mul_comm|]; rewrite ?(Z.mul_comm g); apply Z.div_mul; lia.
Qed.
Theorem slice_period {G} k own (get : tvalue -> res (option G)) s e ns n : 0 < fst own -> 0 < snd own -> Z.gcd (fst own) (snd own) = 1 -> ns * fst own = second * snd own ->
  getitem k own get (KSlice (Some s) e (STime ns)) n = getitem k own get (KSlice (Some s) e SNone) n.
Proof. intros P Q C E. unfold getitem. rewrite (period_rate own ns P Q C E). reflexivity. Qed.
Theorem slice_refused {G} k own (get : tvalue -> res (option G)) a b n : getitem k own get (KSlice a b (STime 0)) n = Err EZeroDiv /\ getitem k own get KOther n = Err EValue.
Proof. split; reflexivity. Qed.
(** Tones that cannot be made. *)
Theorem tone_refused t : (t_samples t = 0 -> new_tone t = Err EZeroDiv) /\ (t_samples t <> 0 -> (new_tone t = Ok t <-> In (t_format t) (0x4 :: map fst tone_table)) /\ (~ In (t_format t) (0x4 :: map fst tone_table) -> new_tone t = Err EValue)).
Proof.
  unfold new_tone. split; [intros ->; reflexivity|]. intros N. replace (t_samples t =? 0) with false by lia.
  assert (X : match tone_depth (t_format t) with Some _ => In (t_format t) (0x4 :: map fst tone_table) | None => ~ In (t_format t) (0x4 :: map fst tone_table) end).
  { generalize (t_format t). clear. intros f. destruct (tone_depth f) eqn:D.
    - revert D. unfold tone_depth, member, tone_table. cbn [map fst].
      repeat match goal with |- (if ?b then _ else _) = _ -> _ => destruct b eqn:B; [intros _; apply existsb_exists in B as (x & I & E); apply Z.eqb_eq in E; subst x; cbn [In] in *; tauto|clear B] end. discriminate.
    - unfold tone_table. cbn [map fst In]. intros I. repeat (destruct I as [<-|I]; [discriminate D|]). exact I. }
  destruct (tone_depth (t_format t)); split; [split; auto|intros H; destruct (H X)|split; [discriminate|intros H; destruct (X H)]|reflexivity].
Qed.
(** The moving bar over a still: the key is rounded to the grid first. *)
Theorem bar_at k own pic speed f w h bar key : clock_ok k -> slow own -> let c := count_at k key own in
  overlay_get k own (still_get k own pic) speed f w h bar key = rbind (overlay f w h bar (speed c) pic) (fun d => Ok (Some (mkSg d (grid k own c) (grid k own c)))).
Proof.
  intros K S c. unfold overlay_get. assert (E : as_ns k (at_rate k key own) = grid k own c) by reflexivity.
  rewrite (proj1 (still_at k own pic (at_rate k key own) K S) c E). cbn [rbind sg_origin sg_picture sg_sync]. rewrite (count_grid k own c K S). reflexivity.
Qed.
Theorem bar_off_grid k own pic speed f hs vs b bits w h bar key : clock_ok k -> slow own -> In (f, (hs, vs, b, bits)) pattern_table -> 0 <= w -> 0 < h / vs -> 0 <= h -> zlen pic = size_for_format f w h ->
  contains (overlay_get k own (still_get k own pic) speed f w h bar) key = Ok true.
Proof.
  intros K S I W V H L. unfold contains. rewrite (bar_at k own pic speed f w h bar key K S). destruct (overlay_ok f hs vs b bits w h bar (speed (count_at k key own)) pic I W V H L) as (d & _ & _ & _ & E & _). rewrite E. reflexivity.
Qed.
Theorem bar_formats f w h bar fnum data : ~ In f (map fst pattern_table) -> overlay f w h bar fnum data = Err EValue.
Proof.
  intros N. unfold overlay. assert (X : px_lookup pixel_ranges f = None); [|rewrite X; reflexivity].
  destruct (px_lookup pixel_ranges f) as [p|] eqn:E; [|reflexivity]. exfalso. apply N. revert E. unfold pixel_ranges, pattern_table. cbn [px_lookup map fst In].
  repeat match goal with |- (if ?x =? ?y then _ else _) = _ -> _ => destruct (Z.eqb_spec x y) as [Q|_]; [intros _; rewrite <- ?Q; auto 20; rewrite ?Q; auto 20|] end. discriminate.
Qed.
