(** Proofs about the table of conversions. *)
From Coq Require Import Lia ZifyBool ZifyNat.
From Verif Require Import Base BaseProofs CogEnums VideoLayout LayoutProofs NpView NpViewProofs NpSpec NpGrainProofs NpConvert NpConvSpec NpConvProofs V210Proofs.
Ltac Zify.zify_post_hook ::= Z.div_mod_to_equations.

(** A conversion function suits two formats. *)
Definition kind_of (f : Z) : option kind := option_map snd (find (fun e => fst e =? f) kinds).
Definition prim_fits (k : conv) (a b : Z) : bool :=
  match k with
  | KFromV210 => (a =? v210) && (b =? S16_422_10BIT)
  | KToV210 => (a =? S16_422_10BIT) && (b =? v210)
  | _ => match kind_of a, kind_of b with Some ka, Some kb => applies k ka kb | _, _ => false end
  end.
Fixpoint suits (fuel : nat) (t : ctable) (k : conv) (a b : Z) : bool :=
  match fuel with
  | O => false
  | S fuel =>
      match k with
      | KCompose first mid second => suits fuel t first a mid && suits fuel t second mid b && existsb (Z.eqb mid) formats
      | KTwoStep a' m b' =>
          (a' =? a) && (b' =? b) && existsb (Z.eqb m) formats &&
          match lookup t a m, lookup t m b with Ok k1, Ok k2 => suits fuel t k1 a m && suits fuel t k2 m b | _, _ => false end
      | _ => prim_fits k a b
      end
  end.

Lemma kind_of_in f k : kind_of f = Some k -> In (f, k) kinds.
Proof.
  unfold kind_of. intros H. destruct (find _ kinds) as [[f' k'] |] eqn:E; [| discriminate]. cbn [option_map snd] in H. injection H as <-.
  apply find_some in E. destruct E as [E1 E2]. cbn [fst] in E2. apply Z.eqb_eq in E2. subst f'. exact E1.
Qed.

Lemma format_cases f : In f formats -> (exists k, In (f, k) kinds) \/ f = v210.
Proof.
  unfold formats. rewrite in_app_iff, in_map_iff. intros [([f' k] & <- & H) | [<- | []]]; [left; exists k; exact H | right; reflexivity].
Qed.

Lemma even_all f k w h : In (f, k) kinds -> w mod 2 = 0 -> h mod 2 = 0 -> even_size k w h.
Proof.
  intros H Hw Hh. destruct (kind_fact f k H) as (_ & _ & Hhs & Hvs & _). split.
  - destruct Hhs as [-> | ->]; [apply Z.mod_1_r | exact Hw].
  - destruct Hvs as [-> | ->]; [apply Z.mod_1_r | exact Hh].
Qed.

Lemma new_format f w h : In f formats -> 0 <= w -> 0 <= h -> exists g, ng_new f w h = Ok g /\ np_ok g /\ g_fmt g = f /\ g_w g = w /\ g_h g = h.
Proof.
  intros Hf Hw Hh. destruct (format_cases f Hf) as [[k Hk] | ->].
  - destruct (new_has_kind f k w h Hk Hw Hh) as (g & E & [_ O] & F & W & H). exists g. tauto.
  - destruct (v210_new w h Hw Hh) as (g & E & [F O] & W & H & _). exists g. tauto.
Qed.

Lemma run_suits fuel t o : forall k gin gout, suits fuel t k (g_fmt gin) (g_fmt gout) = true -> np_ok gin -> np_ok gout -> same_size gin gout ->
  g_w gin mod 2 = 0 -> g_h gin mod 2 = 0 -> exists g', run_conv fuel t o k gin gout = Ok g' /\ np_ok g' /\ same_shape gout g'.
Proof.
  induction fuel as [| fuel IH]; intros k gin gout Hs Hin Hout Hsz Ew Eh; [discriminate |].
  assert (Hprim : prim_fits k (g_fmt gin) (g_fmt gout) = true -> exists g', run_conv (S fuel) t o k gin gout = Ok g' /\ np_ok g' /\ same_shape gout g').
  { clear Hs. intros Hs.
    assert (Happ : (exists ka kb, kind_of (g_fmt gin) = Some ka /\ kind_of (g_fmt gout) = Some kb /\ applies k ka kb = true) ->
      exists g', run_conv (S fuel) t o k gin gout = Ok g' /\ np_ok g' /\ same_shape gout g').
    { intros (ka & kb & Ea & Eb & Hap). apply kind_of_in in Ea, Eb.
      destruct (prim_correct fuel t o k gin ka gout kb Hap (conj Ea Hin) (conj Eb Hout) Hsz) as (g' & E & S & [_ K] & _);
        [eapply even_all; eassumption | eapply even_all; eassumption |]. exists g'. tauto. }
    destruct k; cbn [prim_fits] in Hs;
      try (destruct (kind_of (g_fmt gin)) as [ka |] eqn:Ea; [| discriminate]; destruct (kind_of (g_fmt gout)) as [kb |] eqn:Eb; [| discriminate];
           apply Happ; exists ka, kb; repeat split; assumption).
    - apply andb_true_iff in Hs. destruct Hs as [H1 H2]. apply Z.eqb_eq in H1, H2. cbn [run_conv].
      destruct (from_v210_spec gin gout) as (g' & E & S & [_ K] & _); [split; assumption | split; [rewrite H2; cbn [In kinds]; tauto | exact Hout] | exact Hsz |].
      exists g'. tauto.
    - apply andb_true_iff in Hs. destruct Hs as [H1 H2]. apply Z.eqb_eq in H1, H2. cbn [run_conv].
      destruct (to_v210_spec gin gout) as (g' & E & [_ K] & S & _); [split; [rewrite H1; cbn [In kinds]; tauto | exact Hin] | split; assumption | exact Hsz |].
      exists g'. tauto. }
  destruct k; try (apply Hprim; exact Hs); clear Hprim; cbn [suits] in Hs; cbn [run_conv].
  - apply andb_true_iff in Hs. destruct Hs as [Hs Hm]. apply andb_true_iff in Hs. destruct Hs as [H1 H2].
    apply existsb_exists in Hm. destruct Hm as (m & Hm & Em). apply Z.eqb_eq in Em. subst m.
    destruct Hsz as [HW HH]. assert (Hin' := Hin). destruct Hin' as (Hw & Hh & _).
    destruct (new_format mid (g_w gin) (g_h gin) Hm Hw Hh) as (gm & -> & Om & Fm & Wm & Hhm). cbn [rbind].
    rewrite <- Fm in H1, H2.
    destruct (IH k1 gin gm H1 Hin Om) as (g1 & -> & O1 & (F1 & W1 & Hh1 & _)); [split; congruence | exact Ew | exact Eh |]. cbn [rbind].
    rewrite <- F1 in H2. apply (IH k2 g1 gout H2 O1 Hout); [split; congruence | rewrite W1, Wm; exact Ew | rewrite Hh1, Hhm; exact Eh].
  - apply andb_true_iff in Hs. destruct Hs as [Hs Hk]. apply andb_true_iff in Hs. destruct Hs as [Hs Hm]. apply andb_true_iff in Hs. destruct Hs as [Ha Hb].
    apply Z.eqb_eq in Ha, Hb. subst fmt_in fmt_out. apply existsb_exists in Hm. destruct Hm as (m & Hm & Em). apply Z.eqb_eq in Em. subst m.
    destruct Hsz as [HW HH]. assert (Hin' := Hin). destruct Hin' as (Hw & Hh & _).
    destruct (new_format fmt_mid (g_w gin) (g_h gin) Hm Hw Hh) as (gm & -> & Om & Fm & Wm & Hhm). cbn [rbind].
    destruct (lookup t (g_fmt gin) fmt_mid) as [k1 |]; [| discriminate]. destruct (lookup t fmt_mid (g_fmt gout)) as [k2 |]; [| discriminate]. cbn [rbind].
    apply andb_true_iff in Hk. destruct Hk as [H1 H2]. rewrite <- Fm in H1, H2.
    destruct (IH k1 gin gm H1 Hin Om) as (g1 & -> & O1 & (F1 & W1 & Hh1 & _)); [split; congruence | exact Ew | exact Eh |]. cbn [rbind].
    rewrite <- F1 in H2. apply (IH k2 g1 gout H2 O1 Hout); [split; congruence | rewrite W1, Wm; exact Ew | rewrite Hh1, Hhm; exact Eh].
Qed.

Definition table_fine (t : list (Z * Z * conv)) : bool := forallb (fun a => forallb (fun b =>
  (a =? b) || match lookup t a b with Ok k => suits 4 t k a b | Err _ => false end) formats) formats.

Lemma table_checked : table_fine conversions = true.
Proof. vm_compute. reflexivity. Qed.
