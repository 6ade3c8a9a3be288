(** The frames of a stream of access units. *)
From Coq Require Import Lia ZifyBool ZifyNat.
From Verif Require Import Base BaseProofs PatternTime Wrap WrapSpec WrapProofs H264 H264Spec H264StreamSpec H264BitsProofs H264SetsProofs
  H264RbspProofs H264TruncProofs H264FramesProofs H264UnitProofs H264StreamProofs.
Ltac Zify.zify_post_hook ::= Z.div_mod_to_equations.

(** ** What is known of a picture *)
Lemma key_intra : forall l, key_frame (map header_of l) = forallb intra l.
Proof. induction l as [|s l IH]; [reflexivity|]. unfold key_frame in *. cbn [map forallb]. rewrite IH. reflexivity. Qed.

Lemma aspect_of : forall q, seq_ok q ->
  sample_aspect (sps_of q) = Ok (fi_aspect (info_of q (mkSlice 0 0 0 0 0 0 0 false false 0 0 0 0 0 0) [])).
Proof.
  intros q Q. destruct Q as (_ & _ & _ & _ & _ & _ & _ & _ & _ & _ & _ & _ & V).
  unfold info_of. destruct (crop_of q) as [[[l r] t] b]. cbn [fi_aspect]. unfold sample_aspect.
  change (aspect_ratio_idc (sps_of q)) with (match vui_of q vp_aspect with Some (Aspect i) => i | Some (Extended _ _) => 255 | None => 0 end).
  change (sar_width (sps_of q)) with (match vui_of q vp_aspect with Some (Extended w _) => w | _ => 0 end).
  change (sar_height (sps_of q)) with (match vui_of q vp_aspect with Some (Extended _ h) => h | _ => 0 end).
  destruct (vui_of q vp_aspect) as [[i|w h]|] eqn:E; [| |reflexivity].
  - assert (H : below 255 i).
    { unfold vui_of in E. destruct (q_vui q) as [v|]; [|discriminate]. exact (proj1 (V v eq_refl) _ E). }
    unfold below in H. replace (i =? 255) with false by lia. change aspect_ratios with sar_table.
    destruct (nth_error sar_table (Z.to_nat i)) as [[n m]|]; reflexivity.
  - assert (H : 0 < h).
    { unfold vui_of in E. destruct (q_vui q) as [v|]; [|discriminate]. pose proof (proj1 (V v eq_refl) _ E) as H. cbn [aspect_ok] in H. lia. }
    change (255 =? 255) with true. cbv iota. replace (h =? 0) with false by lia. reflexivity.
Qed.

Lemma frame_factor : forall q, 2 - num (frames_only q) = field_factor q.
Proof. intros q. unfold field_factor. destruct (frames_only q); reflexivity. Qed.

Lemma crop_x : forall q, seq_ok q -> (let a := chroma_array_type (sps_of q) in if a =? 0 then 1 else if a =? 1 then 2 else if a =? 2 then 2 else 1) = crop_unit_x q.
Proof.
  intros q _. cbv zeta. change (chroma_array_type (sps_of q)) with (if separate_planes q then 0 else chroma_format q).
  unfold crop_unit_x. destruct (separate_planes q); [reflexivity|].
  destruct (chroma_format q) as [|[[p|p|]|[p|p|]|]|p]; reflexivity.
Qed.
Lemma crop_y : forall q, (let a := chroma_array_type (sps_of q) in if a =? 0 then 1 else if a =? 1 then 2 else 1) * (2 - num (frames_only q)) = crop_unit_y q.
Proof.
  intros q. cbv zeta. change (chroma_array_type (sps_of q)) with (if separate_planes q then 0 else chroma_format q).
  unfold crop_unit_y. rewrite frame_factor. f_equal. destruct (separate_planes q); [reflexivity|].
  destruct (chroma_format q) as [|[[p|p|]|[p|p|]|]|p]; reflexivity.
Qed.

Lemma fi_eq : forall a b c d e f g h i j k l d' e' f' g' h', d = d' -> e = e' -> f = f' -> g = g' -> h = h' ->
  Ok (Some (mkFi a b c d e f g h i j k l)) = Ok (Some (mkFi a b c d' e' f' g' h' i j k l)).
Proof. intros. subst. reflexivity. Qed.

Lemma extract_info : forall ps q p s l, holds ps q p (s_pic s) -> seq_ok q ->
  extract_frame_info ps (map header_of (s :: l)) = Ok (Some (info_of q s (s :: l))).
Proof.
  intros ps q p s l H Q. pose proof (aspect_of q Q) as A. pose proof (crop_x q Q) as X. pose proof (crop_y q) as Y. cbv zeta in X, Y.
  unfold extract_frame_info. cbn [map].
  change (sh_pps_id (header_of s)) with (s_pic s). rewrite (holds_active _ _ _ _ H). cbv zeta.
  change (frame_mbs_only_flag (sps_of q)) with (num (frames_only q)). rewrite X, Y, A. cbn [rbind].
  rewrite frame_factor.
  change (timing_info_present_flag (sps_of q)) with (num (is_some (vui_of q vp_timing))).
  change (num_units_in_tick (sps_of q)) with (match vui_of q vp_timing with Some (u, _, _) => u | None => 0 end).
  change (time_scale (sps_of q)) with (match vui_of q vp_timing with Some (_, s, _) => s | None => 0 end).
  change (fixed_frame_rate_flag (sps_of q)) with (match vui_of q vp_timing with Some (_, _, f) => num f | None => 0 end).
  change (sh_field (header_of s)) with (num (s_field s)).
  change (frame_crop_left_offset (sps_of q)) with (match q_crop q with Some (l, _, _, _) => l | None => 0 end).
  change (frame_crop_right_offset (sps_of q)) with (match q_crop q with Some (_, r, _, _) => r | None => 0 end).
  change (frame_crop_top_offset (sps_of q)) with (match q_crop q with Some (_, _, t, _) => t | None => 0 end).
  change (frame_crop_bottom_offset (sps_of q)) with (match q_crop q with Some (_, _, _, b) => b | None => 0 end).
  change (pic_width_in_mbs_minus1 (sps_of q)) with (q_width q). change (pic_height_in_map_units_minus1 (sps_of q)) with (q_height q).
  rewrite num_0, negb_involutive.
  change (profile_idc (sps_of q)) with (q_profile q). change (level_idc (sps_of q)) with (q_level q). change (sps_flags (sps_of q)) with (q_flags q).
  change (bit_depth_luma_minus8 (sps_of q)) with (match q_chroma q with Some c => cp_luma c | None => 0 end).
  unfold info_of, crop_of, or_else.
  assert (T : forall u n f, vui_of q vp_timing = Some (u, n, f) -> 0 < u /\ 0 < n).
  { intros u n f E. destruct Q as (_ & _ & _ & _ & _ & _ & _ & _ & _ & _ & _ & _ & V). unfold vui_of in E.
    destruct (q_vui q) as [v|]; [|discriminate]. destruct (V v eq_refl) as (_ & _ & _ & V4). specialize (V4 _ _ _ E). lia. }
  change (header_of s :: map header_of l) with (map header_of (s :: l)). rewrite key_intra.
  destruct (q_crop q) as [[[[cl cr] ct] cb]|]; cbn [fi_aspect];
  (destruct (vui_of q vp_timing) as [[[u n] f]|]; cbn [is_some num option_map snd];
   [destruct (T u n f eq_refl) as [T1 T2]; replace ((n =? 0) || (u =? 0)) with false by lia; cbn [negb];
    rewrite num_0; destruct (s_field s); destruct f; cbn [negb num Z.eqb]; apply fi_eq; try reflexivity; ring
   |apply fi_eq; try reflexivity; ring]).
Qed.

(** ** One call of parse_frame *)
Lemma nth_app_l : forall (a b : bytes) i, (i < length a)%nat -> nth i (a ++ b) 0 = nth i a 0.
Proof. intros a b i H. apply app_nth1. exact H. Qed.

Lemma last_byte : forall us u, exists a x, flat_map unit_bytes (us ++ [u]) = a ++ [x] /\ x <> 0.
Proof.
  intros us u. rewrite flat_map_app. cbn [flat_map]. rewrite app_nil_r. destruct (body_last (snd u)) as (e & x & E & H).
  rewrite unit_bytes_lead, E. exists (flat_map unit_bytes us ++ zeros (lead u) ++ 0 :: 0 :: 1 :: e), x.
  split; [rewrite <- !app_assoc; reflexivity|exact H].
Qed.

Lemma a_units_last : forall a, exists b x, flat_map unit_bytes (a_units a) = b ++ [x] /\ x <> 0.
Proof.
  intros a. destruct (rev (a_units a)) as [|u l] eqn:E.
  - exfalso. assert (a_units a = []) by (rewrite <- (rev_involutive (a_units a)), E; reflexivity). unfold a_units in H.
    destruct (a_before a); discriminate.
  - assert (X : a_units a = rev l ++ [u]) by (rewrite <- (rev_involutive (a_units a)), E; reflexivity). rewrite X. apply last_byte.
Qed.
Lemma a_bytes_pos : forall a, 0 < zlen (a_bytes a).
Proof.
  intros a. unfold a_bytes. destruct (a_units_last a) as (b & x & -> & _). rewrite !zlen_app. change (zlen [x]) with 1.
  pose proof (zlen_nonneg b). pose proof (zlen_nonneg (zeros (a_zeros a))). lia.
Qed.

(** The units of a stream, with the zeros at the end of access units put before the next unit; and the zeros at the end of all. *)
Definition pushed (z : nat) (us : list unit_) : list unit_ := match us with [] => [] | (n, x) :: us => ((z + n)%nat, x) :: us end.
Fixpoint absorbed (z : nat) (l : list access_unit) : list unit_ * nat :=
  match l with
  | [] => ([], z)
  | a :: l => let (us, f) := absorbed (a_zeros a) l in (pushed z (a_units a) ++ us, f)
  end.
Lemma zeros_add : forall a b, zeros (a + b) = zeros a ++ zeros b.
Proof. intros a b. apply repeat_app. Qed.
Lemma pushed_bytes : forall z us, us <> [] -> flat_map unit_bytes (pushed z us) = zeros z ++ flat_map unit_bytes us.
Proof.
  intros z [|[n x] us] H; [contradiction|]. cbn [pushed flat_map]. unfold unit_bytes at 1 3. cbn [fst snd]. rewrite zeros_add, <- !app_assoc. reflexivity.
Qed.
Lemma a_units_some : forall a, a_units a <> [].
Proof. intros a. unfold a_units. destruct (a_before a); discriminate. Qed.
Lemma absorbed_bytes : forall l z,
  zeros z ++ flat_map a_bytes l = flat_map unit_bytes (fst (absorbed z l)) ++ zeros (snd (absorbed z l)).
Proof.
  induction l as [|a l IH]; intros z; cbn [flat_map absorbed]; [cbn [fst snd flat_map]; rewrite app_nil_r; reflexivity|].
  specialize (IH (a_zeros a)). destruct (absorbed (a_zeros a) l) as [us f]. cbn [fst snd] in *.
  rewrite flat_map_app, pushed_bytes by apply a_units_some. unfold a_bytes at 1. rewrite <- !app_assoc. do 2 f_equal. exact IH.
Qed.
Lemma absorbed_cons : forall a l, exists us,
  fst (absorbed (a_zeros a) l) = us /\
  match l with
  | [] => us = []
  | b :: _ => exists u us3, us = u :: us3 /\ lead u = (a_zeros a + first_zeros b)%nat
  end.
Proof.
  intros a l. eexists. split; [reflexivity|]. destruct l as [|b l]; [reflexivity|]. cbn [absorbed].
  destruct (absorbed (a_zeros b) l) as [us f]. cbn [fst]. unfold a_units, first_zeros, lead.
  destruct (a_before b) as [|[n x] us']; cbn [app pushed]; do 2 eexists; split; reflexivity.
Qed.
Lemma first_bytes : forall b l, exists t, flat_map a_bytes (b :: l) = zeros (first_zeros b) ++ t.
Proof.
  intros b l. cbn [flat_map]. unfold a_bytes at 1, a_units, first_zeros. destruct (a_before b) as [|[n x] us]; cbn [app flat_map]; unfold unit_bytes at 1;
    cbn [fst]; rewrite <- !app_assoc; eexists; reflexivity.
Qed.

Lemma parse_frame_au : forall k a l ps d m, ready ps k (a_before a) ->
  let k' := fold_left learn (a_before a) k in
  au_ok k' a -> breaks k' (a_first a) (fst (absorbed (a_zeros a) l)) ->
  match l with [] => True | b :: _ => first_zeros b = 1%nat \/ (first_zeros b = 0%nat /\ a_zeros a = 0%nat) end ->
  d ++ m = a_bytes a ++ flat_map a_bytes l ->
  (exists ps', parse_frame ps d = (ps', Ok None) /\ ready ps' k (a_before a) /\ (m = [] -> l = [])) \/
  (exists ps' x, parse_frame ps d = (ps', Ok (Some (zlen (a_bytes a), codes_from 0 (a_units a),
       Some (info_of (a_seq a) (a_first a) (flat_map primary (a_units a)))))) /\
     knows ps' k' /\ l <> [] /\ d = a_bytes a ++ x /\ x ++ m = flat_map a_bytes l).
Proof.
  intros k a l ps d m R k' (Ob & K & Zr & Oa) B J H.
  pose proof H as H0. unfold a_bytes at 1 in H0. rewrite <- app_assoc, absorbed_bytes in H0.
  destruct (absorbed_cons a l) as (us2 & Eu & Cu). set (z := snd (absorbed (a_zeros a) l)) in *. rewrite Eu in *.
  rewrite app_assoc, <- flat_map_app in H0.
  assert (Nl : us2 = [] -> l = []). { intros ->. destruct l; [reflexivity|]. destruct Cu as (? & ? & X & _). discriminate. }
  destruct (visible _ _ _ _ H0) as (j & bs & D & S).
  unfold a_units in S. rewrite <- app_assoc in S. cbn [app] in S.
  pose proof (walk_au (is_nil m) (a_lead a) (a_seq a) (a_pic a) (a_first a) (a_data a) us2 (a_after a) (a_before a) k ps [] 0 j bs
    R Ob K Zr Oa B S) as W. cbv zeta in W. rewrite Z.add_0_l in W. fold (a_units a) in W. cbn [app] in W.
  destruct W as [G W].
  destruct bs as [|b bs].
  - left. exists ps. cbn [codes flat_map] in D. rewrite app_nil_r in D. subst d.
    assert (P : parse_frame ps (zeros j) = (ps, Ok None)) by (unfold parse_frame; rewrite findall_zeros; reflexivity).
    split; [exact P|]. split; [exact R|]. intros ->. cbn [is_nil] in *. inversion S as [us j' E| |]; subst. specialize (E eq_refl).
    apply app_eq_nil in E as [_ E]. discriminate.
  - pose proof (parse_frame_walk ps (is_nil m) _ j b bs S) as P. cbv zeta in P. rewrite <- D in P.
    destruct (walk ps [] [] (Z.of_nat j) (b :: bs)) as [ps' r]. cbn [fst snd] in *.
    destruct W as [[[F W]|[F (h & t & W)]]|(u & us3 & E2 & Kn & W & L)]; subst r.
    + left. exists ps'. split; [exact P|]. split; [exact (ready_grown _ _ _ _ R G)|]. intros ->. discriminate.
    + left. exists ps'. split; [exact P|]. split; [exact (ready_grown _ _ _ _ R G)|]. intros ->. apply Nl, F. reflexivity.
    + right. exists ps'.
      destruct l as [|c l]; [rewrite E2 in Cu; discriminate Cu|].
      destruct Cu as (u' & us' & Cu & Lu). rewrite E2 in Cu. injection Cu as <- <-. rewrite Lu in *. clear Lu.
      rewrite (extract_info ps' (a_seq a) (a_pic a)) in P; [|exact (knows_holds _ _ _ _ _ Kn (proj2 (proj2 K)))|exact (proj1 K)].
      assert (Ld : zlen d = Z.of_nat j + zlen (codes (b :: bs))) by (rewrite D, zlen_app, zlen_zeros; reflexivity).
      assert (La : zlen (a_bytes a) = total (a_units a) + Z.of_nat (a_zeros a)).
      { unfold a_bytes, total. rewrite zlen_app, zlen_zeros. reflexivity. }
      destruct (prefix_cases _ _ _ _ _ H) as [(x & Ex & E3)|(x & Ex & N & E3)].
      2:{ exfalso. rewrite Ex, zlen_app in La. pose proof (zlen_nonneg x). destruct x; [contradiction|].
          rewrite zlen_cons in La. pose proof (zlen_nonneg x). lia. }
      exists x. split; [|split; [exact Kn|split; [discriminate|split; [exact Ex|exact E3]]]].
      rewrite P. repeat f_equal.
      2:{ unfold a_units. rewrite flat_map_app. cbn [flat_map].
          change (primary (a_lead a, SliceU (a_seq a) (a_pic a) (a_first a) (a_data a))) with (if s_redundant (a_first a) =? 0 then [a_first a] else []).
          rewrite Zr. change (0 =? 0) with true. cbv iota. cbn [app]. replace (flat_map primary (a_before a)) with (@nil slice_part); [reflexivity|].
          clear - Ob. induction Ob as [|[l n] us O F IH]; [reflexivity|]. cbn [flat_map]. rewrite <- IH, app_nil_r.
          destruct n; [reflexivity|reflexivity|contradiction|reflexivity]. }
      assert (Lx : 3 <= zlen x) by (rewrite Ex, zlen_app in Ld; lia).
      pose proof (a_bytes_pos a) as Pa.
      destruct J as [J|[J J0]].
      * rewrite J. rewrite Nat2Z.inj_add, Z.add_0_l, Z.add_assoc, <- La. change (Z.of_nat 1) with 1.
        replace (zlen (a_bytes a) + 1 - 1) with (zlen (a_bytes a)) by ring.
        assert (X0 : exists x', x = 0 :: x').
        { destruct (first_bytes c l) as [t Et]. rewrite Et, J in E3. destruct x as [|v x]; [change (zlen (@nil Z)) with 0 in Lx; lia|].
          exists x. cbn [app] in E3. change (zeros 1) with [0] in E3. cbn [app] in E3. assert (v = 0) by congruence. subst. reflexivity. }
        destruct X0 as [x' ->]. rewrite Ex. replace (Z.to_nat (zlen (a_bytes a))) with (length (a_bytes a)) by (unfold zlen; lia).
        rewrite nth_app_mid. change (0 =? 0) with true. replace (0 <? zlen (a_bytes a) + 1) with true by lia. reflexivity.
      * rewrite J, J0 in *. change (Z.of_nat (0 + 0)) with 0. change (Z.of_nat 0) with 0 in La. rewrite Z.add_0_r in La. rewrite <- La, Z.add_0_l, Z.add_0_r.
        destruct (a_units_last a) as (c0 & y & Ec & Hy).
        assert (Ea : a_bytes a = c0 ++ [y]) by (unfold a_bytes; rewrite J0, Ec; apply app_nil_r).
        rewrite Ex, Ea. rewrite zlen_app. change (zlen [y]) with 1. replace (zlen c0 + 1 - 1) with (zlen c0) by ring.
        rewrite <- app_assoc. cbn [app]. replace (Z.to_nat (zlen c0)) with (length c0) by (unfold zlen; lia). rewrite nth_app_mid.
        replace (y =? 0) with false by lia. rewrite andb_false_r. reflexivity.
Qed.

(** ** The end of the stream *)
Fixpoint inform (ps : param_sets) (hs : list slice_header) (bs : list bytes) : param_sets * res (list slice_header) :=
  match bs with
  | [] => (ps, Ok hs)
  | b :: bs =>
      match nal_unit_type (0 :: 0 :: 1 :: b) with
      | Err e => (ps, Err e)
      | Ok t =>
          if is_slice t then
            match on_rbsp (0 :: 0 :: 1 :: b) (parse_slice_header ps) with
            | Err e => (ps, Err e)
            | Ok h => if negb (sh_redundant h =? 0) then (ps, Ok hs) else inform ps (hs ++ [h]) bs
            end
          else if t <=? 5 then (ps, Ok hs)
          else if t =? 7 then
            match on_rbsp (0 :: 0 :: 1 :: b) parse_sps with
            | Err e => (ps, Err e)
            | Ok s => inform (mkPs (dput (seq_parameter_set_id s) s (sps_sets ps)) (pps_sets ps)) hs bs
            end
          else if t =? 8 then
            match on_rbsp (0 :: 0 :: 1 :: b) parse_pps with
            | Err e => (ps, Err e)
            | Ok p => inform (mkPs (sps_sets ps) (dput (pps_id p) p (pps_sets ps))) hs bs
            end
          else inform ps hs bs
      end
  end.

Lemma info_units_walk : forall bs b pre ps hs,
  info_units (pre ++ codes (b :: bs)) ps hs (zlen pre) (places (zlen pre + 3 + zlen b) bs ++ [zlen (pre ++ codes (b :: bs))]) =
  inform ps hs (b :: bs).
Proof.
  induction bs as [|c bs IH]; intros b pre ps hs.
  - destruct (codes_slice pre b []) as (n & next & E & En & S & N & _). rewrite E. cbn [info_units inform]. rewrite S, (N eq_refl).
    destruct (nal_unit_type (0 :: 0 :: 1 :: b)) as [t|e]; reflexivity.
  - destruct (codes_slice pre b (c :: bs)) as (n & next & E & En & S & _ & N). rewrite E. cbn [info_units]. rewrite S.
    assert (L : zlen (pre ++ 0 :: 0 :: 1 :: b) = zlen pre + 3 + zlen b) by (rewrite zlen_app, zlen_code; ring).
    assert (I : forall ps hs, info_units (pre ++ codes (b :: c :: bs)) ps hs n next = inform ps hs (c :: bs)).
    { intros ps1 hs1. rewrite (N ltac:(discriminate)), En. cbn [places tl].
      specialize (IH c (pre ++ 0 :: 0 :: 1 :: b) ps1 hs1). rewrite L in IH.
      replace (pre ++ codes (b :: c :: bs)) with ((pre ++ 0 :: 0 :: 1 :: b) ++ codes (c :: bs)) by (rewrite <- app_assoc; reflexivity).
      exact IH. }
    remember (c :: bs) as cbs. cbn [inform]. destruct (nal_unit_type (0 :: 0 :: 1 :: b)) as [t|e]; [|reflexivity].
    destruct (is_slice t).
    + destruct (on_rbsp (0 :: 0 :: 1 :: b) (parse_slice_header ps)) as [h|e]; [|reflexivity].
      destruct (negb (sh_redundant h =? 0)); [reflexivity|apply I].
    + destruct (t <=? 5); [reflexivity|]. destruct (t =? 7).
      * destruct (on_rbsp (0 :: 0 :: 1 :: b) parse_sps); [apply I|reflexivity].
      * destruct (t =? 8); [|apply I]. destruct (on_rbsp (0 :: 0 :: 1 :: b) parse_pps); [apply I|reflexivity].
Qed.

Lemma short_full : forall A (r v : res A), or_short true r v -> r = v.
Proof. intros A r v [H|[H _]]; [exact H|discriminate]. Qed.

Lemma inform_slice : forall ps k q p s t j hs bs, knows ps k -> slice_known k q p s ->
  inform ps hs ((nal_body (SliceU q p s t) ++ zeros j) :: bs) =
  if s_redundant s =? 0 then inform ps (hs ++ [header_of s]) bs else (ps, Ok hs).
Proof.
  intros ps k q p s t j hs bs K (Q & S & R). cbn [inform].
  destruct (slice_headed q p s t S) as [H T]. pose proof (knows_holds _ _ _ _ _ K R) as Ho.
  assert (V : seen true (SliceU q p s t) (nal_body (SliceU q p s t) ++ zeros j)) by (left; exists j; reflexivity).
  rewrite (short_full _ _ _ (type_seen true _ _ H V)). cbn [type_of]. rewrite T.
  rewrite (short_full _ _ _ (rbsp_seen _ true (parse_slice_header ps) _ _ (header_of s) (proj2 (tame_slice ps (proj1 K)))
              (fun u => slice_seen ps q p s t u Ho Q S) V)).
  change (sh_redundant (header_of s)) with (s_redundant s). destruct (s_redundant s =? 0); reflexivity.
Qed.

Lemma inform_other : forall ps r y t j hs bs, below 4 r -> y = 6 \/ 9 <= y <= 31 ->
  inform ps hs ((nal_body (OtherU r y t) ++ zeros j) :: bs) = inform ps hs bs.
Proof.
  intros ps r y t j hs bs Hr Hy. cbn [inform].
  assert (H : headed (OtherU r y t)) by (unfold headed; cbn [ref_of type_of]; unfold below in *; lia).
  rewrite (type_full _ j H). cbn [type_of]. unfold is_slice. replace ((y =? 1) || (y =? 2) || (y =? 5)) with false by lia.
  replace (y <=? 5) with false by lia. replace (y =? 7) with false by lia. replace (y =? 8) with false by lia. reflexivity.
Qed.

Lemma inform_stop : forall ps r y t j hs bs, below 4 r -> y = 0 \/ y = 3 \/ y = 4 ->
  inform ps hs ((nal_body (OtherU r y t) ++ zeros j) :: bs) = (ps, Ok hs).
Proof.
  intros ps r y t j hs bs Hr Hy. cbn [inform].
  assert (H : headed (OtherU r y t)) by (unfold headed; cbn [ref_of type_of]; unfold below in *; lia).
  rewrite (type_full _ j H). cbn [type_of]. unfold is_slice. replace ((y =? 1) || (y =? 2) || (y =? 5)) with false by lia.
  replace (y <=? 5) with true by lia. reflexivity.
Qed.

Lemma inform_after : forall k f after ps hs j bs, knows ps k -> Forall (fun u => after_ok k f (snd u)) after -> sees true after j bs ->
  inform ps hs bs = (ps, Ok (hs ++ map header_of (leading after))).
Proof.
  intros k f. induction after as [|[l n] after IH]; intros ps hs j bs K A S.
  - inversion S; subst. cbn [inform leading map]. rewrite app_nil_r. reflexivity.
  - pose proof (Forall_inv A) as Au. pose proof (Forall_inv_tail A) as At. cbn [snd] in Au.
    inversion S as [us j' E|u us b m F E|u us j' bs' S']; subst; [specialize (E eq_refl); discriminate|discriminate|].
    cbn [snd leading]. destruct n as [q t|p t|q p s t|r y t]; cbn [after_ok] in Au; try contradiction.
    + rewrite (inform_slice ps k) by tauto. destruct (s_redundant s =? 0); [|cbn [map]; rewrite app_nil_r; reflexivity].
      rewrite (IH ps (hs ++ [header_of s]) j' bs' K At S'), <- app_assoc. reflexivity.
    + destruct (y <=? 5) eqn:Y.
      * rewrite inform_stop by (tauto || lia). cbn [map]. rewrite app_nil_r. reflexivity.
      * rewrite inform_other by (tauto || lia). exact (IH ps hs j' bs' K At S').
Qed.

Lemma inform_au : forall l q p s t after before k ps j bs,
  ready ps k before -> Forall (fun u => before_ok (snd u)) before ->
  let k' := fold_left learn before k in
  slice_known k' q p s -> s_redundant s = 0 -> Forall (fun u => after_ok k' s (snd u)) after ->
  sees true (before ++ (l, SliceU q p s t) :: after) j bs ->
  exists ps', inform ps [] bs = (ps', Ok (map header_of (s :: leading after))) /\ knows ps' k'.
Proof.
  intros l q p s t after. induction before as [|[lv n] before IH]; intros k ps j bs R O k' K Z A S.
  - unfold k' in *. cbn [fold_left app] in *. pose proof (ready_knows _ _ R) as Kn. exists ps. split; [|exact Kn].
    inversion S as [us j' E|u us b m F E|u us j' bs' S']; subst; [specialize (E eq_refl); discriminate|discriminate|].
    cbn [snd]. rewrite (inform_slice ps k) by assumption. rewrite Z. change (0 =? 0) with true. cbv iota.
    rewrite (inform_after k s after ps _ j' bs' Kn A S'). reflexivity.
  - pose proof (Forall_inv O) as Ov. pose proof (Forall_inv_tail O) as Ot. cbv beta in Ov.
    pose proof (ready_act _ before ps k Ov R) as Ra. unfold k' in *. clear k'. cbn [fold_left app snd] in *.
    inversion S as [us j' E|u us b m F E|u us j' bs' S']; subst; [specialize (E eq_refl); discriminate|discriminate|].
    destruct (IH (learn k (lv, n)) (act ps n) j' bs' Ra Ot K Z A S') as (ps' & E & Kn). exists ps'. split; [|exact Kn]. rewrite <- E.
    cbn [snd]. destruct n as [q' t'|p' t'|q' p' s' t'|r y t']; cbn [before_ok act] in *; [| |contradiction|].
    + cbn [inform]. assert (H : headed (SeqU q' t')) by (apply before_headed; exact Ov). rewrite (type_full _ j' H). cbn [type_of].
      change (is_slice 7) with false. cbv iota. change (7 <=? 5) with false. cbv iota. change (7 =? 7) with true. cbv iota.
      rewrite (on_rbsp_full _ parse_sps _ j' (sps_of q')) by (intros u; apply sps_seen; exact Ov). reflexivity.
    + cbn [inform]. assert (H : headed (PicU p' t')) by (apply before_headed; exact Ov). rewrite (type_full _ j' H). cbn [type_of].
      change (is_slice 8) with false. change (8 <=? 5) with false. change (8 =? 7) with false. change (8 =? 8) with true. cbv iota.
      rewrite (on_rbsp_full _ parse_pps _ j' (pps_of p')) by (intros u; apply pps_seen; tauto). reflexivity.
    + apply inform_other; tauto.
Qed.

Lemma sees_places : forall us j bs i, sees true us j bs -> us <> [] -> places (i + Z.of_nat j) bs = codes_from i us.
Proof.
  intros us j bs i S. revert i. induction S as [us k E|u us b m F E|u us k bs S IH]; intros i N; [specialize (E eq_refl); contradiction|discriminate|].
  rewrite codes_from_cons. cbn [places]. f_equal. rewrite zlen_app, zlen_zeros, zlen_unit.
  destruct us as [|v us]; [inversion S; reflexivity|].
  replace (i + Z.of_nat (lead u) + 3 + (zlen (nal_body (snd u)) + Z.of_nat k))
    with (i + (Z.of_nat (lead u) + 3 + zlen (nal_body (snd u))) + Z.of_nat k) by ring.
  apply IH. discriminate.
Qed.

Lemma last_frame_au : forall k a ps, ready ps k (a_before a) -> au_ok (fold_left learn (a_before a) k) a ->
  last_frame ps (a_bytes a) = ([frame_of leading a], None).
Proof.
  intros k a ps R (Ob & K & Zr & Oa). set (d := a_bytes a).
  destruct (visible (a_units a) (a_zeros a) d []) as (j & bs & D & S); [rewrite app_nil_r; reflexivity|]. cbn [is_nil] in S.
  assert (N : a_units a <> []) by (unfold a_units; destruct (a_before a); discriminate).
  assert (Pl : findall 0 0 1 0 d = codes_from 0 (a_units a)).
  { rewrite D, (findall_lead j bs (sees_clean _ _ _ _ S)). exact (sees_places _ _ _ 0 S N). }
  unfold last_frame. assert (Ld : 0 <? zlen d = true) by (pose proof (a_bytes_pos a); fold d in H; lia).
  rewrite Ld, Pl. destruct bs as [|b bs]; [inversion S as [us j' E| |]; subst; specialize (E eq_refl); contradiction|].
  pose proof (sees_places _ _ _ 0 S N) as Q. rewrite Z.add_0_l in Q. cbn [places] in Q.
  destruct (codes_from 0 (a_units a)) as [|o os] eqn:Co; [discriminate|].
  assert (Qo : o = Z.of_nat j) by congruence. assert (Qs : os = places (Z.of_nat j + 3 + zlen b) bs) by congruence.
  unfold parse_frame_info. rewrite Qo, Qs.
  pose proof (info_units_walk bs b (zeros j) ps []) as W. rewrite zlen_zeros, <- D in W. rewrite W.
  destruct (inform_au (a_lead a) (a_seq a) (a_pic a) (a_first a) (a_data a) (a_after a) (a_before a) k ps j (b :: bs) R Ob K Zr Oa S) as (ps' & -> & Kn).
  rewrite (extract_info ps' (a_seq a) (a_pic a)); [|exact (knows_holds _ _ _ _ _ Kn (proj2 (proj2 K)))|exact (proj1 K)].
  unfold frame_of. fold d. rewrite Co, Qo, Qs. repeat f_equal.
  unfold a_units. clear - Ob Zr. induction Ob as [|[l n] us O F IH].
  - cbn [app leading snd]. rewrite Zr. reflexivity.
  - cbn [app leading snd]. destruct n; [exact IH|exact IH|contradiction|]. cbn [snd before_ok] in O. replace (type <=? 5) with false by lia. exact IH.
Qed.

(** ** All of it *)
Lemma stream_head : forall k f a l, stream_ok k f (a :: l) -> stream_ok k None (a :: l).
Proof. intros k f a l (A & _ & B). split; [exact A|]. split; [exact I|exact B]. Qed.

Lemma stream_breaks : forall k a l z, stream_ok k (Some a) l -> breaks k (a_first a) (fst (absorbed z l)).
Proof.
  intros k f [|a l] z H; [exact I|]. destruct H as ((Ob & K & Z & _) & [P _] & _). cbn [absorbed].
  destruct (absorbed (a_zeros a) l) as [us2 e]. cbn [fst]. unfold a_units.
  destruct (a_before a) as [|[n x] us]; cbn [app pushed breaks fold_left] in *.
  - right. exists (a_seq a), (a_pic a), (a_first a), (a_data a). cbn [snd]. split; [reflexivity|]. split; [exact K|]. split; assumption.
  - left. split; [exact P|]. exact (Forall_inv Ob).
Qed.

Lemma frames_stream : forall fuel src k a l ps buffer prev (start : bool), fragments_ok src ->
  3 * zlen (concat src) + 2 * zlen buffer + (if start then 1 else 0) < Z.of_nat fuel ->
  buffer ++ concat src = flat_map a_bytes (a :: l) -> ready ps k (a_before a) -> stream_ok k None (a :: l) ->
  h264_frames src_read src ps buffer prev start fuel = (frames_of (a :: l), None).
Proof.
  induction fuel as [|fuel IH]; intros src k a l ps buffer prev start Fr Hm Hb R O.
  { pose proof (zlen_nonneg (concat src)). pose proof (zlen_nonneg buffer). destruct start; lia. }
  cbn [h264_frames].
  pose proof (read_size_nonneg start prev buffer) as Hs.
  set (size := read_size start prev buffer) in *.
  assert (X : exists src' data, (if 0 <? size then src_read size src else (src, Ok [])) = (src', Ok data) /\
    concat src = data ++ concat src' /\ fragments_ok src' /\ (0 < size -> zlen data = 0 -> src = [])).
  { destruct (0 <? size) eqn:S.
    - destruct (src_read_spec size src ltac:(lia) Fr) as (src' & b & E & Ec & Fr' & _ & Z & _).
      exists src', b. split; [exact E|]. split; [exact Ec|]. split; [exact Fr'|]. intros _ Zb. destruct (Z Zb); [lia|assumption].
    - exists src, []. split; [reflexivity|]. split; [reflexivity|]. split; [exact Fr|]. lia. }
  destruct X as (src' & data & E & Ec & Fr' & Zd). rewrite E. clear E.
  pose proof (zlen_nonneg data) as Ld.
  assert (Lc : zlen (concat src) = zlen data + zlen (concat src')) by (rewrite Ec, zlen_app; reflexivity).
  rewrite Ec, app_assoc in Hb. cbn [flat_map] in Hb. destruct O as (Oa & _ & Ol).
  pose proof (stream_breaks _ _ _ (a_zeros a) Ol) as Br.
  assert (J : match l with [] => True | b :: _ => first_zeros b = 1%nat \/ (first_zeros b = 0%nat /\ a_zeros a = 0%nat) end)
    by (destruct l as [|b l]; [exact I|exact (proj2 (proj1 (proj2 Ol)))]).
  destruct (parse_frame_au k a l ps (buffer ++ data) (concat src') R Oa Br J Hb)
    as [(ps' & P & R' & N)|(ps' & x & P & Kn & N & Ex & E3)]; rewrite P.
  - destruct ((0 <? size) && (zlen data =? 0)) eqn:D.
    + assert (src = []) by (apply Zd; lia). subst src. cbn [concat] in Ec. symmetry in Ec. apply app_eq_nil in Ec as [-> Ec].
      specialize (N Ec).
      subst l. cbn [frames_of]. rewrite Ec, !app_nil_r in Hb. cbn [flat_map] in Hb. rewrite ?app_nil_r in Hb. rewrite Hb, ?app_nil_r.
      apply (last_frame_au k); assumption.
    + apply (IH src' k a l ps'); [exact Fr'| | |exact R'|split; [exact Oa|split; [exact I|exact Ol]]].
      * rewrite zlen_app. pose proof (zlen_nonneg buffer). destruct start; [lia|].
        assert (size = READ_BLOCK_SIZE) by reflexivity. unfold READ_BLOCK_SIZE in *. lia.
      * cbn [flat_map]. exact Hb.
  - destruct l as [|b l]; [contradiction|].
    pose proof (a_bytes_pos a) as La.
    replace (0 <? zlen (a_bytes a)) with true by lia. rewrite Ex, zskip_app, zfirst_app.
    pose proof (zlen_nonneg x) as Lx. assert (Lb : zlen (buffer ++ data) = zlen (a_bytes a) + zlen x) by (rewrite Ex; apply zlen_app).
    rewrite zlen_app in Lb.
    rewrite (IH src' (fold_left learn (a_before a) k) b l ps' x (Some (zlen (a_bytes a))) true Fr').
    + reflexivity.
    + destruct start; lia.
    + exact E3.
    + apply knows_ready. exact Kn.
    + exact (stream_head _ _ _ _ Ol).
Qed.

Lemma stream_frames : forall l src fuel, stream_ok nothing None l -> fragments_ok src -> concat src = flat_map a_bytes l ->
  3 * zlen (concat src) + 1 < Z.of_nat fuel -> h264_frames src_read src (mkPs [] []) [] None true fuel = (frames_of l, None).
Proof.
  intros [|a l] src fuel O Fr Hc Hf.
  - cbn [flat_map] in Hc. assert (src = []).
    { destruct src as [|f r]; [reflexivity|]. pose proof (frag_pos _ _ Fr). cbn [concat] in Hc. apply app_eq_nil in Hc as [-> _].
      change (zlen (@nil Z)) with 0 in H. lia. }
    subst src. destruct fuel as [|fuel]; [cbn in Hf; lia|]. reflexivity.
  - apply (frames_stream fuel src nothing a l); [exact Fr| |exact Hc| |exact O].
    + change (zlen (@nil Z)) with 0. lia.
    + apply knows_ready. split; [constructor|]. split; intros id q H; discriminate.
Qed.
