(** Proofs that parameter sets and slice headers are read as they were written. *)
From Coq Require Import Lia ZifyBool ZifyNat.
From Verif Require Import Base BaseProofs PatternTime Wrap H264 H264Spec H264BitsProofs.
Ltac Zify.zify_post_hook ::= Z.div_mod_to_equations.

Lemma scaling_list_end : forall n last b, scaling_list n last 0 b = Ok (tt, b).
Proof.
  induction n as [|n IH]; intros last b; cbn [scaling_list]; [reflexivity|].
  change (negb (0 =? 0)) with false. cbv iota. rewrite bind_ret. apply IH.
Qed.

Lemma scaling_list_read : forall ds n acc t, acc <> 0 ->
  (0 < length ds <= n)%nat ->
  (forall k, (0 < k < length ds)%nat -> (acc + sum (firstn k ds)) mod 256 <> 0) ->
  (length ds = n \/ (acc + sum ds) mod 256 = 0) ->
  scaling_list n acc acc (write (map SE ds) ++ t) = Ok (tt, t).
Proof.
  induction ds as [|d ds IH]; intros n acc t Ha Hl Hk He; cbn [length] in Hl; [lia|].
  destruct n as [|n]; [lia|]. cbn [scaling_list].
  replace (negb (acc =? 0)) with true by lia. cbv iota.
  rewrite bind_assoc. cbn [map]. rewrite read_SE. rewrite bind_ret.
  set (m := (acc + d + 256) mod 256).
  assert (M : forall x, (m + x) mod 256 = (acc + d + x) mod 256).
  { intros x. unfold m. rewrite Z.add_mod_idemp_l by lia. replace (acc + d + 256 + x) with (acc + d + x + 1 * 256) by ring.
    apply Z.mod_add. lia. }
  destruct ds as [|d2 ds].
  - cbn [map]. rewrite write_nil. destruct n as [|n].
    + reflexivity.
    + destruct He as [He|He]; [cbn [length] in He; lia|].
      assert (Z0 : m = 0).
      { unfold m. cbn [sum fold_right] in He. rewrite <- He at 1. replace (acc + d + 256) with (acc + (d + 0) + 1 * 256) by ring.
        apply Z.mod_add. lia. }
      rewrite Z0. apply scaling_list_end.
  - assert (N : m <> 0).
    { specialize (Hk 1%nat ltac:(cbn [length]; lia)). cbn [firstn sum fold_right] in Hk.
      replace m with ((m + 0) mod 256).
      - rewrite M. replace (acc + d + 0) with (acc + (d + 0)) by ring. exact Hk.
      - rewrite Z.add_0_r. unfold m. apply Z.mod_mod. lia. }
    replace (m =? 0) with false by lia.
    apply IH.
    + exact N.
    + cbn [length] in *. lia.
    + intros k Hk2. rewrite M. specialize (Hk (S k) ltac:(cbn [length] in *; lia)).
      change (firstn (S k) (d :: d2 :: ds)) with (d :: firstn k (d2 :: ds)) in Hk.
      cbn [sum fold_right] in Hk. fold (sum (firstn k (d2 :: ds))) in Hk.
      replace (acc + d + sum (firstn k (d2 :: ds))) with (acc + (d + sum (firstn k (d2 :: ds)))) by ring. exact Hk.
    + destruct He as [He|He]; [left; cbn [length] in *; lia|right].
      rewrite M. change (sum (d :: d2 :: ds)) with (d + sum (d2 :: ds)) in He. rewrite <- He. f_equal. ring.
Qed.

Lemma scaling_lists_read : forall l i t,
  (forall j ds, nth_error l j = Some (Some ds) -> scaling_ok (if (i + j <? 6)%nat then 16 else 64) ds) ->
  scaling_lists i (length l) (write (flat_map (fun l => present l (map SE)) l) ++ t) = Ok (tt, t).
Proof.
  induction l as [|o l IH]; intros i t H; cbn [length scaling_lists flat_map]; [reflexivity|].
  rewrite write_app, <- app_assoc.
  assert (R : scaling_lists (S i) (length l) (write (flat_map (fun l => present l (map SE)) l) ++ t) = Ok (tt, t)).
  { apply IH. intros j ds Hj. replace (S i + j)%nat with (i + S j)%nat by lia. apply H. exact Hj. }
  destruct o as [ds|]; cbn [present].
  - rewrite read_F. change (negb (num true =? 0)) with true. cbv iota.
    specialize (H 0%nat ds eq_refl). rewrite Nat.add_0_r in H. destruct H as (H1 & H2 & H3).
    erewrite bind_ok; [exact R|].
    destruct (i <? 6)%nat; apply scaling_list_read; assumption || discriminate.
  - rewrite read_F. change (negb (num false =? 0)) with false. cbv iota. rewrite bind_ret, write_nil. exact R.
Qed.

Lemma existsb_profiles : forall p, In p high_profiles <-> existsb (Z.eqb p) chroma_profiles = true.
Proof.
  intros p. change chroma_profiles with high_profiles. rewrite existsb_exists. split.
  - intros H. exists p. split; [exact H|]. apply Z.eqb_refl.
  - intros (x & H & E). apply Z.eqb_eq in E. subst. exact H.
Qed.

Lemma parse_chroma_read : forall profile o t,
  match o with Some c => In profile high_profiles /\ chroma_ok c | None => ~ In profile high_profiles end ->
  parse_chroma profile (write (opt o chroma_syntax) ++ t) =
  Ok (match o with
      | Some c => (cp_format c, if cp_separate c then 0 else cp_format c, num (cp_separate c), cp_luma c, cp_chroma c)
      | None => (1, 1, 0, 0, 0)
      end, t).
Proof.
  intros profile [c|] t H; unfold parse_chroma.
  2:{ destruct (existsb (Z.eqb profile) chroma_profiles) eqn:E; [|reflexivity].
      apply existsb_profiles in E. contradiction. }
  destruct H as [Hp (Hf & Hl & Hc & Hs & Hm)].
  apply existsb_profiles in Hp. rewrite Hp. cbn [opt]. unfold chroma_syntax, below in *.
  cbn [app]. rewrite read_UE by lia. rewrite bind_check by lia.
  assert (G : forall sep u, sep = num (cp_separate c) ->
    (luma <- ue ;; check (6 <? luma) ;;; chroma <- ue ;; check (6 <? chroma) ;;; uint 1 ;;; matrix <- uint 1 ;;
     (if negb (matrix =? 0) then scaling_lists 0 (if negb (cp_format c =? 3) then 8%nat else 12%nat) else pret tt) ;;;
     pret (cp_format c, if sep =? 0 then cp_format c else 0, sep, luma, chroma))
      (write (UE (cp_luma c) :: UE (cp_chroma c) :: F (cp_bypass c) :: present (cp_scaling c) (flat_map (fun l => present l (map SE)))) ++ u) =
    Ok (cp_format c, if cp_separate c then 0 else cp_format c, num (cp_separate c), cp_luma c, cp_chroma c, u)).
  { intros sep u ->.
    rewrite read_UE by lia. rewrite bind_check by lia. rewrite read_UE by lia. rewrite bind_check by lia. rewrite read_F.
    replace (if num (cp_separate c) =? 0 then cp_format c else 0) with (if cp_separate c then 0 else cp_format c)
      by (destruct (cp_separate c); reflexivity).
    destruct (cp_scaling c) as [l|]; cbn [present].
    - rewrite read_F. change (negb (num true =? 0)) with true. cbv iota.
      destruct (Hm l eq_refl) as [L1 L2].
      erewrite bind_ok; [reflexivity|].
      replace (if negb (cp_format c =? 3) then 8%nat else 12%nat) with (length l) by (destruct (cp_format c =? 3); exact L1).
      apply scaling_lists_read. exact L2.
    - rewrite read_F. change (negb (num false =? 0)) with false. cbv iota. rewrite bind_ret, write_nil. reflexivity. }
  destruct (cp_format c =? 3) eqn:E.
  - cbn [app]. rewrite read_F. apply (G _ t eq_refl).
  - cbn [app]. rewrite bind_ret. apply (G _ t). rewrite Hs by lia. reflexivity.
Qed.

Lemma times_read : forall A (wr : A -> list elem) (ok : A -> Prop) (p : parser unit),
  (forall a t, ok a -> p (write (wr a) ++ t) = Ok (tt, t)) ->
  forall l fuel n t, Forall ok l -> (length l <= fuel)%nat -> n = zlen l ->
  times fuel n p (write (flat_map wr l) ++ t) = Ok (tt, t).
Proof.
  intros A wr ok p Hp. induction l as [|a l IH]; intros fuel n t Hok Hf ->.
  - destruct fuel; reflexivity.
  - rewrite zlen_cons. cbn [length] in Hf. destruct fuel as [|fuel]; [lia|].
    cbn [times]. pose proof (zlen_nonneg l) as L.
    replace (1 + zlen l <=? 0) with false by lia. cbn [flat_map].
    rewrite write_app, <- app_assoc.
    rewrite (bind_ok _ _ _ _ _ tt (write (flat_map wr l) ++ t)).
    + apply IH; [exact (Forall_inv_tail Hok)|lia|lia].
    + apply Hp. exact (Forall_inv Hok).
Qed.

Lemma repeat_read_write : forall A (wr : A -> list elem) (ok : A -> Prop) (p : parser unit),
  (forall a t, ok a -> p (write (wr a) ++ t) = Ok (tt, t)) ->
  (forall a, (1 <= length (write (wr a)))%nat) ->
  forall l n t, Forall ok l -> n = zlen l -> repeat_read n p (write (flat_map wr l) ++ t) = Ok (tt, t).
Proof.
  intros A wr ok p Hp Hw l n t Hok Hn. unfold repeat_read. apply (times_read A wr ok p Hp); [exact Hok| |exact Hn].
  rewrite app_length.
  assert (G : (length l <= length (write (flat_map wr l)))%nat).
  { clear - Hw. induction l as [|a l IH]; cbn [flat_map length]; [lia|].
    rewrite write_app, app_length. specialize (Hw a). lia. }
  lia.
Qed.

Lemma golomb_nonempty : forall v, (1 <= length (golomb v))%nat.
Proof. intros v. unfold golomb. cbv zeta. rewrite app_length, put_length. lia. Qed.

Lemma map_flat : forall A B (f : A -> B) l, map f l = flat_map (fun a => [f a]) l.
Proof. intros A B f l. induction l; cbn [map flat_map app]; [reflexivity|]. rewrite IHl. reflexivity. Qed.

Lemma skip_se : forall v t, skip se (write [SE v] ++ t) = Ok (tt, t).
Proof. intros v t. unfold skip. rewrite read_SE. reflexivity. Qed.
Lemma skip_ue : forall v t, 0 <= v -> skip ue (write [UE v] ++ t) = Ok (tt, t).
Proof. intros v t Hv. unfold skip. rewrite read_UE by assumption. reflexivity. Qed.

Lemma parse_poc_read : forall p t, poc_ok p ->
  parse_poc (write (poc_syntax p) ++ t) =
  Ok (match p with Poc0 n => (0, n, 0) | Poc1 z _ _ _ => (1, 0, num z) | Poc2 => (2, 0, 0) end, t).
Proof.
  intros [n|z a b c|] t H; unfold parse_poc, poc_syntax; cbn [app].
  - rewrite read_UE by lia. change (0 =? 0) with true. cbv iota. cbn [poc_ok] in H. rewrite read_UE by assumption. reflexivity.
  - rewrite read_UE by lia. change (1 =? 0) with false. change (1 =? 1) with true. cbv iota.
    rewrite read_F, read_SE, read_SE. cbn [poc_ok] in H.
    pose proof (zlen_nonneg c). rewrite read_UE by assumption. rewrite bind_check by lia.
    rewrite (bind_ok _ _ _ _ _ tt t); [reflexivity|].
    rewrite map_flat. apply (repeat_read_write Z (fun v => [SE v]) (fun _ => True)).
    + intros v u _. apply skip_se.
    + intros v. unfold write. cbn [flat_map write1]. rewrite app_nil_r. apply golomb_nonempty.
    + clear. induction c; constructor; auto.
    + reflexivity.
  - rewrite read_UE by lia. reflexivity.
Qed.

Lemma parse_crop_read : forall o t, (forall l r u b, o = Some (l, r, u, b) -> 0 <= l /\ 0 <= r /\ 0 <= u /\ 0 <= b) ->
  parse_crop (write (present o (fun '(l, r, t, b) => [UE l; UE r; UE t; UE b])) ++ t) = Ok (or_else (0, 0, 0, 0) o, t).
Proof.
  intros [[[[l r] u] b]|] t H; unfold parse_crop; cbn [present or_else]; rewrite read_F.
  - destruct (H l r u b eq_refl) as (H1 & H2 & H3 & H4).
    change (negb (num true =? 0)) with true. cbv iota. rewrite !read_UE by assumption. reflexivity.
  - reflexivity.
Qed.

Lemma parse_aspect_read : forall o l t, (forall a, o = Some a -> aspect_ok a) ->
  parse_aspect (write (present o (fun a => match a with Aspect i => [U 8 i] | Extended w h => [U 8 255; U 16 w; U 16 h] end) ++ l) ++ t) =
  Ok (match o with Some (Aspect i) => (i, 0, 0) | Some (Extended w h) => (255, w, h) | None => (0, 0, 0) end, write l ++ t).
Proof.
  intros [[i|w h]|] l t H; unfold parse_aspect; cbn [present app]; rewrite read_F.
  - specialize (H _ eq_refl). cbn [aspect_ok] in H. unfold below in H.
    change (negb (num true =? 0)) with true. cbv iota. rewrite read_U by (change (2 ^ 8) with 256; lia).
    replace (i =? 255) with false by lia. reflexivity.
  - specialize (H _ eq_refl). cbn [aspect_ok] in H. unfold below in H.
    change (negb (num true =? 0)) with true. cbv iota. rewrite read_U by (change (2 ^ 8) with 256; lia).
    change (255 =? 255) with true. cbv iota. rewrite !read_U by lia. reflexivity.
  - reflexivity.
Qed.

Lemma parse_signal_read : forall o l t, (forall s, o = Some s -> signal_ok s) ->
  parse_signal (write (present o (fun '(f, r, c) => [U 3 f; F r] ++ present c (fun '(p, t, m) => [U 8 p; U 8 t; U 8 m])) ++ l) ++ t) =
  Ok (num (is_some o), match o with Some (f, _, _) => f | None => 5 end, num (is_some (match o with Some (_, _, c) => c | None => None end)),
      (match o with Some (_, _, Some (p, _, _)) => p | _ => 2 end, match o with Some (_, _, Some (_, t, _)) => t | _ => 2 end,
       match o with Some (_, _, Some (_, _, m)) => m | _ => 2 end), write l ++ t).
Proof.
  intros [[[f r] [[[p q] m]|]]|] l t H; unfold parse_signal; cbn [present app]; rewrite read_F;
    [change (negb (num true =? 0)) with true|change (negb (num true =? 0)) with true|reflexivity]; cbv iota;
    specialize (H _ eq_refl); cbn [signal_ok] in H; unfold below in H.
  - rewrite read_U by (change (2 ^ 3) with 8; lia). rewrite read_F, read_F.
    change (negb (num true =? 0)) with true. cbv iota. rewrite !read_U by (change (2 ^ 8) with 256; lia). reflexivity.
  - rewrite read_U by (change (2 ^ 3) with 8; lia). rewrite read_F, read_F. reflexivity.
Qed.

Lemma parse_timing_read : forall o l t, (forall u s f, o = Some (u, s, f) -> 0 < u < 2 ^ 32 /\ 0 < s < 2 ^ 32) ->
  parse_timing (write (present o (fun '(u, s, f) => [U 32 u; U 32 s; F f]) ++ l) ++ t) =
  Ok (num (is_some o), match o with Some (u, _, _) => u | None => 0 end, match o with Some (_, s, _) => s | None => 0 end,
      match o with Some (_, _, f) => num f | None => 0 end, write l ++ t).
Proof.
  intros [[[u s] f]|] l t H; unfold parse_timing; cbn [present app]; rewrite read_F; [|reflexivity].
  specialize (H _ _ _ eq_refl).
  change (negb (num true =? 0)) with true. cbv iota. rewrite !read_U by lia. rewrite read_F. reflexivity.
Qed.

Lemma parse_vui_read : forall o t, (forall v, o = Some v -> vui_ok v) ->
  parse_vui (write (present o vui_syntax) ++ t) =
  let via {A} (f : vui_part -> option A) := match o with Some v => f v | None => None end in
  Ok (num (is_some o),
      match via vp_aspect with Some (Aspect i) => (i, 0, 0) | Some (Extended w h) => (255, w, h) | None => (0, 0, 0) end,
      (num (is_some (via vp_signal)), match via vp_signal with Some (f, _, _) => f | None => 5 end,
       num (is_some (match via vp_signal with Some (_, _, c) => c | None => None end)),
       (match via vp_signal with Some (_, _, Some (p, _, _)) => p | _ => 2 end, match via vp_signal with Some (_, _, Some (_, t, _)) => t | _ => 2 end,
        match via vp_signal with Some (_, _, Some (_, _, m)) => m | _ => 2 end)),
      (num (is_some (via vp_timing)), match via vp_timing with Some (u, _, _) => u | None => 0 end,
       match via vp_timing with Some (_, s, _) => s | None => 0 end, match via vp_timing with Some (_, _, f) => num f | None => 0 end), t).
Proof.
  intros [v|] t H; unfold parse_vui; cbn [present]; rewrite read_F; [|reflexivity].
  change (negb (num true =? 0)) with true. cbv iota zeta.
  destruct (H v eq_refl) as (H1 & H2 & H3 & H4). unfold vui_syntax.
  erewrite bind_ok by (apply parse_aspect_read; exact H1).
  assert (O : forall B (f : Z -> parser B) l u, (forall z, f z = f 0) ->
    pbind (uint 1) (fun o => pbind (if negb (o =? 0) then skip (uint 1) else pret tt) (fun _ => f 0)) (write (present (vp_overscan v) (fun o => [F o]) ++ l) ++ u) =
    f 0 (write l ++ u)).
  { intros B f l u _. destruct (vp_overscan v) as [o|]; cbn [present app]; rewrite read_F.
    - change (negb (num true =? 0)) with true. cbv iota. rewrite bind_skip, read_F. reflexivity.
    - reflexivity. }
  match goal with |- pbind (uint 1) (fun o => pbind _ (fun _ => ?k)) _ = _ => rewrite (O _ (fun _ => k)) by reflexivity end.
  clear O.
  erewrite bind_ok by (apply parse_signal_read; exact H2).
  assert (C : forall B (f : Z -> parser B) l u, (forall z, f z = f 0) ->
    pbind (uint 1) (fun o => pbind (if negb (o =? 0) then ue ;;; skip ue else pret tt) (fun _ => f 0))
      (write (present (vp_location v) (fun '(t, b) => [UE t; UE b]) ++ l) ++ u) =
    f 0 (write l ++ u)).
  { intros B f l u _. destruct (vp_location v) as [[a b]|]; cbn [present app]; rewrite read_F.
    - destruct (H3 a b eq_refl) as [Ha Hb].
      change (negb (num true =? 0)) with true. cbv iota. rewrite bind_assoc, read_UE by assumption.
      rewrite bind_skip, read_UE by assumption. reflexivity.
    - reflexivity. }
  match goal with |- pbind (uint 1) (fun o => pbind _ (fun _ => ?k)) _ = _ => rewrite (C _ (fun _ => k)) by reflexivity end.
  clear C.
  rewrite <- (app_nil_r (present (vp_timing v) _)).
  erewrite bind_ok by (apply parse_timing_read; exact H4).
  reflexivity.
Qed.

Lemma bind_write : forall A B (p : parser A) (f : A -> parser B) l m v t,
  (forall u, p (write l ++ u) = Ok (v, u)) -> pbind p f (write (l ++ m) ++ t) = f v (write m ++ t).
Proof. intros A B p f l m v t H. rewrite write_app, <- app_assoc. apply bind_ok. apply H. Qed.

Lemma parse_sps_read : forall q t, seq_ok q -> parse_sps (write (seq_syntax q) ++ t) = Ok (sps_of q, t).
Proof.
  intros q t (H1 & H2 & H3 & H4 & H5 & H6 & H7 & H8 & H9 & H10 & H11 & H12 & H13).
  unfold below in *. unfold parse_sps, seq_syntax. cbn [app].
  rewrite !read_U by lia. rewrite read_UE by lia. rewrite bind_check by lia.
  erewrite bind_write by (intros u; apply parse_chroma_read; exact H6).
  rewrite read_UE by lia.
  erewrite bind_write by (intros u; apply parse_poc_read; exact H8).
  rewrite read_UE by lia. rewrite read_F. rewrite read_UE by lia. rewrite read_UE by lia.
  assert (M : forall B (f : Z -> parser B) l u,
    pbind (uint 1) (fun m => pbind (if m =? 0 then skip (uint 1) else pret tt) (fun _ => f m))
      (write (match q_fields q with None => [F true] | Some adaptive => [F false; F adaptive] end ++ l) ++ u) =
    f (num (frames_only q)) (write l ++ u)).
  { intros B f l u. unfold frames_only. destruct (q_fields q) as [a|]; cbn [app]; rewrite read_F.
    - change (num false =? 0) with true. cbv iota. rewrite bind_skip, read_F. reflexivity.
    - reflexivity. }
  match goal with |- pbind (uint 1) ?k _ = _ =>
    match k with (fun m => pbind _ (fun _ => @?f m)) => rewrite (M _ f) end end.
  clear M. cbv beta. cbn [app]. rewrite read_F.
  erewrite bind_write by (intros u; apply parse_crop_read; exact H12).
  erewrite bind_ok by (apply parse_vui_read; exact H13).
  cbv zeta.
  unfold sps_of, separate_planes, chroma_format, colour, vui_of, or_else, pret.
  destruct (q_chroma q) as [c|]; destruct (q_poc q) as [n|z a b c'|];
    destruct (q_crop q) as [[[[l r] u] b']|]; destruct (q_vui q) as [v|];
    try (destruct (vp_aspect v) as [[i|w h]|]); try (destruct (vp_signal v) as [[[f r'] [[[p tr] m]|]]|]); reflexivity.
Qed.

(** ** Picture parameter sets *)
Lemma bits_required_log2 : forall n v, 0 < v -> Z.log2 v <= Z.of_nat n -> bits_required n v = Z.log2 v.
Proof.
  induction n as [|n IH]; intros v Hv Hl; cbn [bits_required].
  - pose proof (Z.log2_nonneg v). lia.
  - destruct (Z.testbit v (Z.of_nat (S n))) eqn:E.
    + destruct (Z.eq_dec (Z.log2 v) (Z.of_nat (S n))) as [D|D]; [lia|].
      rewrite Z.bits_above_log2 in E by lia. discriminate.
    + apply IH; [exact Hv|].
      destruct (Z.eq_dec (Z.log2 v) (Z.of_nat (S n))) as [D|D]; [|lia].
      rewrite <- D, Z.bit_log2 in E by exact Hv. discriminate.
Qed.

Lemma put_nonempty : forall n v, 0 < n -> (1 <= length (put (Z.to_nat n) v))%nat.
Proof. intros n v H. rewrite put_length. lia. Qed.

Lemma parse_groups_read : forall n g t, group_ok n g ->
  (forall ids, g = Explicit ids -> group_bits n = Z.log2 (zlen ids) /\ zlen ids < 2 ^ 64) ->
  parse_groups n (write (group_syntax n g) ++ t) = Ok (tt, t).
Proof.
  intros n g t [Hn Hg] He. unfold parse_groups. replace (0 <? n) with true by lia.
  destruct g as [runs| |cs|k d r|ids]; cbn [group_syntax].
  - rewrite read_UE by lia. change (0 =? 0) with true. cbv iota. destruct Hg as [Hl Hr].
    rewrite map_flat. apply (repeat_read_write Z (fun v => [UE v]) (Z.le 0)).
    + intros v u Hv. apply skip_ue. exact Hv.
    + intros v. unfold write. cbn [flat_map write1]. rewrite app_nil_r. apply golomb_nonempty.
    + exact Hr.
    + lia.
  - rewrite read_UE by lia. reflexivity.
  - rewrite read_UE by lia. change (2 =? 0) with false. change (2 =? 2) with true. cbv iota. destruct Hg as [Hl Hr].
    apply (repeat_read_write (Z * Z) (fun '(a, b) => [UE a; UE b]) (fun '(a, b) => 0 <= a /\ 0 <= b)).
    + intros [a b] u [Ha Hb]. rewrite read_UE by exact Ha. apply skip_ue. exact Hb.
    + intros [a b]. unfold write. cbn [flat_map write1]. rewrite app_length. pose proof (golomb_nonempty a). lia.
    + exact Hr.
    + lia.
  - rewrite read_UE by lia. destruct Hg as [Hk Hr].
    replace (k =? 0) with false by lia. replace (k =? 2) with false by lia.
    replace ((k =? 3) || (k =? 4) || (k =? 5)) with true by lia.
    rewrite read_F. apply skip_ue. exact Hr.
  - destruct Hg as [Hl Hr]. destruct (He ids eq_refl) as [W Hs].
    rewrite read_UE by lia. change (6 =? 0) with false. change (6 =? 2) with false.
    change ((6 =? 3) || (6 =? 4) || (6 =? 5)) with false. change (6 =? 6) with true. cbv iota.
    rewrite read_UE by lia. replace (zlen ids - 1 + 1) with (zlen ids) by lia.
    assert (L : Z.log2 (zlen ids) <= 63).
    { destruct (Z.le_gt_cases (Z.log2 (zlen ids)) 63) as [L|L]; [exact L|].
      pose proof (Z.log2_spec (zlen ids) Hl) as [L2 _].
      assert (2 ^ 64 <= 2 ^ Z.log2 (zlen ids)) by (apply Z.pow_le_mono_r; lia). lia. }
    rewrite bits_required_log2 by lia. rewrite <- W.
    assert (G : 0 < group_bits n).
    { unfold group_bits. apply Z.log2_up_pos. lia. }
    rewrite map_flat. apply (repeat_read_write Z (fun v => [U (group_bits n) v]) (below (2 ^ group_bits n))).
    + intros v u Hv. unfold skip. rewrite read_U by assumption. reflexivity.
    + intros v. unfold write. cbn [flat_map write1]. rewrite app_nil_r. apply put_nonempty. exact G.
    + exact Hr.
    + reflexivity.
Qed.

Lemma parse_pps_read : forall p t, pic_ok p -> readable_groups p -> parse_pps (write (pic_syntax p) ++ t) = Ok (pps_of p, t).
Proof.
  intros p t (H1 & H2 & H3 & H4 & H5 & H6 & H7) R. unfold below in *. unfold parse_pps, pic_syntax. cbn [app].
  rewrite !read_U by lia. rewrite read_UE by lia. rewrite read_UE by lia. rewrite read_F, read_F.
  assert (T : (ue ;;; ue ;;; uint 1 ;;; uint 2 ;;; se ;;; se ;;; se ;;; uint 1 ;;; uint 1 ;;;
               redundant <- uint 1 ;; pret (mkPps (i_seq p) (i_id p) (num (i_bottom p)) redundant))
    (write [UE (i_l0 p); UE (i_l1 p); F (i_weighted p); U 2 (i_bipred p); SE (i_qp p); SE (i_qs p); SE (i_chroma_qp p);
            F (i_deblocking p); F (i_intra p); F (i_redundant p)] ++ t) = Ok (pps_of p, t)).
  { rewrite read_UE by lia. rewrite read_UE by lia. rewrite read_F. rewrite read_U by lia. rewrite !read_SE, !read_F. reflexivity. }
  destruct (i_groups p) as [[n g]|] eqn:E.
  - cbn [app]. destruct (H4 n g eq_refl) as [Hn Hg] eqn:Eg. rewrite read_UE by lia.
    erewrite bind_write; [exact T|]. intros u. apply parse_groups_read; [exact (H4 n g eq_refl)|].
    intros ids ->. apply (R n ids E).
  - cbn [app]. rewrite read_UE by lia. exact T.
Qed.

(** ** Slice headers *)
Lemma parse_slice_read : forall ps q p s t, holds ps q p (s_pic s) -> seq_ok q -> slice_ok q p s ->
  parse_slice_header ps (write (slice_syntax q p s) ++ t) = Ok (header_of s, t).
Proof.
  intros ps q p s t [Hp Hq] (_ & _ & _ & _ & _ & _ & Hfn & Hpoc & _)
    (S1 & S2 & S3 & S4 & S5 & S6 & S7 & S8 & S9 & S10 & S11 & S12 & S13 & S14).
  unfold below in *. unfold parse_slice_header, slice_syntax. cbn [app].
  assert (U5 : 0 <= s_unit s < 2 ^ 5) by (cbn [In] in S2; lia).
  rewrite !read_U by lia. rewrite !read_UE by lia.
  unfold plift at 1, active. rewrite Hp. cbn [pps_of pps_sps_id]. rewrite Hq.
  unfold pbind at 1. cbn [fst snd].
  (* the colour plane *)
  assert (P : forall B (f : parser B) l u,
    pbind (if negb (separate_colour_plane_flag (sps_of q) =? 0) then skip (uint 2) else pret tt) (fun _ => f)
      (write ((if separate_planes q then [U 2 (s_plane s)] else []) ++ l) ++ u) = f (write l ++ u)).
  { intros B f l u. cbn [sps_of separate_colour_plane_flag]. destruct (separate_planes q); cbn [num app].
    - change (negb (1 =? 0)) with true. cbv iota. rewrite bind_skip, read_U by lia. reflexivity.
    - reflexivity. }
  rewrite P. clear P.
  change (log2_max_frame_num_minus4 (sps_of q)) with (q_frame_num q). cbn [app]. rewrite read_U by lia.
  change (frame_mbs_only_flag (sps_of q)) with (num (frames_only q)).
  (* the fields *)
  assert (P : forall B (f : Z -> Z -> parser B) l u,
    pbind (if num (frames_only q) =? 0 then uint 1 else pret 0) (fun x =>
      pbind (if (num (frames_only q) =? 0) && negb (x =? 0) then uint 1 else pret 0) (fun y => f x y))
      (write ((if frames_only q then [] else F (s_field s) :: if s_field s then [F (s_bottom s)] else []) ++ l) ++ u) =
    f (num (s_field s)) (num (s_bottom s)) (write l ++ u)).
  { intros B f l u. destruct (frames_only q); cbn [num].
    - rewrite S9 by (apply S8; reflexivity). rewrite S8 by reflexivity. reflexivity.
    - change (0 =? 0) with true. cbv iota. cbn [app andb]. rewrite read_F.
      destruct (s_field s); cbn [num].
      + change (negb (1 =? 0)) with true. cbv iota. cbn [app]. rewrite read_F. reflexivity.
      + rewrite S9 by reflexivity. reflexivity. }
  match goal with |- pbind _ (fun x => pbind _ (fun y => @?f x y)) _ = _ => rewrite (P _ f) end.
  clear P. cbv beta.
  (* the IDR picture *)
  assert (P : forall B (f : Z -> parser B) l u,
    pbind (if s_unit s =? 5 then ue else pret 0) f (write ((if s_unit s =? 5 then [UE (s_idr s)] else []) ++ l) ++ u) =
    f (s_idr s) (write l ++ u)).
  { intros B f l u. destruct (s_unit s =? 5); cbn [app].
    - rewrite read_UE by assumption. reflexivity.
    - rewrite S10. reflexivity. }
  rewrite P. clear P.
  (* the last element *)
  assert (L : forall (f : Z -> slice_header) u,
    pbind (if negb (pps_redundant (pps_of p) =? 0) then ue else pret 0) (fun r => pret (f r))
      (write (if i_redundant p then [UE (s_redundant s)] else []) ++ u) = Ok (f (s_redundant s), u)).
  { intros f u. cbn [pps_of pps_redundant]. destruct (i_redundant p); cbn [num].
    - change (negb (1 =? 0)) with true. cbv iota. rewrite read_UE by assumption. reflexivity.
    - rewrite S14. reflexivity. }
  assert (FD : negb (pps_bottom_field (pps_of p) =? 0) && (num (s_field s) =? 0) = frame_deltas p s).
  { unfold frame_deltas. cbn [pps_of pps_bottom_field]. destruct (i_bottom p), (s_field s); reflexivity. }
  rewrite <- !andb_assoc. rewrite FD.
  unfold header_of, num at 3. 
  change (pic_order_cnt_type (sps_of q)) with (match q_poc q with Poc0 _ => 0 | Poc1 _ _ _ _ => 1 | Poc2 => 2 end).
  change (log2_max_pic_order_cnt_lsb_minus4 (sps_of q)) with (match q_poc q with Poc0 n => n | _ => 0 end).
  change (delta_pic_order_always_zero_flag (sps_of q)) with (match q_poc q with Poc1 z _ _ _ => num z | _ => 0 end).
  destruct (q_poc q) as [n|z a b c|].
  - change (0 =? 0) with true. change (0 =? 1) with false. cbv iota. cbn [andb app]. cbn [poc_ok] in Hpoc.
    rewrite read_U by lia.
    destruct S13 as [Z0 Z1].
    destruct (frame_deltas p s); cbn [app].
    + rewrite read_SE. rewrite !bind_ret. rewrite Z0, Z1. apply (L (fun r => mkSh _ _ _ _ _ _ _ _ _ _ _ r _ _)).
    + rewrite !bind_ret. rewrite Z0, Z1, S12 by reflexivity. apply (L (fun r => mkSh _ _ _ _ _ _ _ _ _ _ _ r _ _)).
  - change (1 =? 0) with false. change (1 =? 1) with true. cbv iota. cbn [andb]. rewrite !bind_ret.
    destruct z; cbn [num].
    + change (1 =? 0) with false. cbn [andb app]. rewrite !bind_ret. destruct S13 as [Z0 Z1]. rewrite S11, S12, Z0, Z1.
      apply (L (fun r => mkSh _ _ _ _ _ _ _ _ _ _ _ r _ _)).
    + change (0 =? 0) with true. cbn [andb app]. rewrite read_SE.
      destruct (frame_deltas p s); cbn [app].
      * rewrite read_SE. rewrite S11, S12. apply (L (fun r => mkSh _ _ _ _ _ _ _ _ _ _ _ r _ _)).
      * rewrite bind_ret. rewrite S11, S12, S13 by reflexivity. apply (L (fun r => mkSh _ _ _ _ _ _ _ _ _ _ _ r _ _)).
  - change (2 =? 0) with false. change (2 =? 1) with false. cbn [andb app]. rewrite !bind_ret. destruct S13 as [Z0 Z1].
    rewrite S11, S12, Z0, Z1. apply (L (fun r => mkSh _ _ _ _ _ _ _ _ _ _ _ r _ _)).
Qed.
