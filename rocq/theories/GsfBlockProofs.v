(** Block-level parsing lemmas: how the block readers behave on well-formed nested blocks. *)
From Verif Require Import Base BaseProofs Utf8 Utf8Proofs GsfPrim GsfPrimProofs GsfBlock.
From Coq Require Import ZifyBool ZifyNat.
Ltac Zify.zify_post_hook ::= Z.div_mod_to_equations.

(** A well-formed block: 4-byte tag, exact 4-byte size, payload. *)
Definition enc_block (t : bytes) (payload : bytes) : bytes := t ++ enc_uint 4 (8 + zlen payload) ++ payload.
Definition enc_blk (c : bytes * bytes) : bytes := enc_block (fst c) (snd c).

(** The raw tag bytes [t] are read as the string [tag], which is not the concatenation marker. *)
Definition raw_tag (t : bytes) (tag : str) : Prop :=
  zlen t = 4 /\ (exists s, utf8_dec t = Some s /\ clean_string s = tag) /\ tag <> T_SSBB.

Lemma enc_block_len t pl : zlen t = 4 -> zlen (enc_block t pl) = 8 + zlen pl.
Proof. intros H. unfold enc_block. rewrite !zlen_app, enc_uint_len, H. lia. Qed.

Definition small_payload (pl : bytes) : Prop := 8 + zlen pl < 4294967296.

Lemma read_tag_size_At f p t pl rest tag :
  At f p (enc_block t pl ++ rest) -> raw_tag t tag -> small_payload pl ->
  read_tag_size f p = Ok ((tag, 8 + zlen pl), p + 8).
Proof.
  intros HA (Hl & (s & Hs & Hc) & Hn) Hsm. unfold enc_block in HA. rewrite <- !app_assoc in HA.
  unfold read_tag_size, read_tag.
  pose proof (Parses_string_bytes 4 t s Hl Hs f p _ HA) as P. rewrite Hc in P.
  rewrite (bind_run _ _ _ _ _ _ P).
  replace (zlist_eqb tag T_SSBB) with false by (symmetry; apply zlist_eqb_neq; assumption).
  apply At_advance in HA. pose proof (zlen_nonneg pl).
  pose proof (Parses_uint4 (8 + zlen pl) ltac:(unfold small_payload in Hsm; lia) f _ _ HA) as Q.
  rewrite (bind_run _ _ _ _ _ _ Q). unfold ret. rewrite enc_uint_len, Hl. do 2 f_equal. lia.
Qed.

Lemma enter_At f p t pl rest tag want rs :
  At f p (enc_block t pl ++ rest) -> raw_tag t tag -> small_payload pl -> want = None \/ want = Some tag ->
  enter want rs f p = Ok (mkBlk (f_base f + p) (8 + zlen pl) tag, p + 8).
Proof.
  intros HA Ht Hs Hw. unfold enter.
  erewrite bind_run by reflexivity. unfold fuel_of. cbn [enter_loop].
  rewrite (bind_run _ _ _ _ _ _ (read_tag_size_At _ _ _ _ _ _ HA Ht Hs)).
  destruct Hw as [-> | ->]; [reflexivity|]. rewrite zlist_eqb_refl. reflexivity.
Qed.

(** [PB tag m bs v]: run at the start of the payload [bs] of a block tagged [tag] that ends exactly where [bs]
    ends, [m] returns [v] without running past the block. [PBx]: and it stops exactly at the end. *)
Definition PB {A} (tag : str) (m : blk -> rd A) (bs : bytes) (v : A) : Prop :=
  forall f p rest b, At f p (bs ++ rest) -> b_start b + b_size b = f_base f + p + zlen bs -> b_tag b = tag ->
  exists q, m b f p = Ok (v, q) /\ p <= q <= p + zlen bs.
Definition PBx {A} (tag : str) (m : blk -> rd A) (bs : bytes) (v : A) : Prop :=
  forall f p rest b, At f p (bs ++ rest) -> b_start b + b_size b = f_base f + p + zlen bs -> b_tag b = tag ->
  m b f p = Ok (v, p + zlen bs).

Lemma PBx_PB {A} tag (m : blk -> rd A) bs v : PBx tag m bs v -> PB tag m bs v.
Proof.
  intros H f p rest b HA HE HT. exists (p + zlen bs). split; [eapply H; eassumption|].
  pose proof (zlen_nonneg bs). lia.
Qed.

Lemma Parses_PBx {A} tag (m : rd A) bs v : Parses m bs v -> PBx tag (fun _ => m) bs v.
Proof. intros H f p rest b HA _ _. eapply H; eassumption. Qed.

Lemma PBx_pre {A B} tag (m : rd A) (k : A -> blk -> rd B) a bs v w :
  Parses m a v -> PBx tag (k v) bs w -> PBx tag (fun b => bind m (fun x => k x b)) (a ++ bs) w.
Proof.
  intros Hm Hk f p rest b HA HE HT. rewrite <- app_assoc in HA.
  rewrite (bind_run _ _ _ _ _ _ (Hm _ _ _ HA)). apply At_advance in HA.
  rewrite zlen_app in *. erewrite Hk; [|eassumption|lia|assumption]. do 2 f_equal. lia.
Qed.

Lemma PBx_map {A B} tag (m : blk -> rd A) (g : A -> B) bs v :
  PBx tag m bs v -> PBx tag (fun b => bind (m b) (fun x => ret (g x))) bs (g v).
Proof.
  intros H f p rest b HA HE HT. rewrite (bind_run _ _ _ _ _ _ (H _ _ _ _ HA HE HT)). reflexivity.
Qed.

Lemma PB_map {A B} tag (m : blk -> rd A) (g : A -> B) bs v :
  PB tag m bs v -> PB tag (fun b => bind (m b) (fun x => ret (g x))) bs (g v).
Proof.
  intros H f p rest b HA HE HT. destruct (H _ _ _ _ HA HE HT) as (q & Hq & Hr).
  exists q. split; [|assumption]. rewrite (bind_run _ _ _ _ _ _ Hq). reflexivity.
Qed.

Lemma PB_skip {A} tag (v : A) bs : PB tag (fun _ => ret v) bs v.
Proof.
  intros f p rest b HA HE HT. exists p. split; [reflexivity|]. pose proof (zlen_nonneg bs). lia.
Qed.

Lemma PB_ext {A} tag (m m' : blk -> rd A) bs v :
  (forall b, b_tag b = tag -> forall f p, m b f p = m' b f p) -> PB tag m' bs v -> PB tag m bs v.
Proof.
  intros He H f p rest b HA HE HT. rewrite (He b HT). eapply H; eassumption.
Qed.

Lemma PBx_ext {A} tag (m m' : blk -> rd A) bs v :
  (forall b, b_tag b = tag -> forall f p, m b f p = m' b f p) -> PBx tag m' bs v -> PBx tag m bs v.
Proof.
  intros He H f p rest b HA HE HT. rewrite (He b HT). eapply H; eassumption.
Qed.

Lemma exit_block_at f q b : (f_fwd f = true -> q <= b_start b + actual_size (b_size b) - f_base f) ->
  exit_block b f q = Ok (tt, b_start b + actual_size (b_size b) - f_base f).
Proof.
  intros H. unfold exit_block. destruct (f_fwd f); cbn [andb]; [|reflexivity].
  specialize (H eq_refl). replace (_ <? q) with false by lia. reflexivity.
Qed.

(** Processing one well-formed block with a body that stays inside it moves exactly past the block. *)
Lemma with_block_At {A} (body : blk -> rd A) f p t pl rest tag want rs v :
  At f p (enc_block t pl ++ rest) -> raw_tag t tag -> small_payload pl -> want = None \/ want = Some tag ->
  PB tag body pl v ->
  with_block want rs body f p = Ok (v, p + zlen (enc_block t pl)).
Proof.
  intros HA Ht Hs Hw HB. unfold with_block.
  rewrite (bind_run _ _ _ _ _ _ (enter_At _ _ _ _ _ _ _ rs HA Ht Hs Hw)).
  assert (At f (p + 8) (pl ++ rest)) as HA'.
  { unfold enc_block in HA. rewrite app_assoc, <- app_assoc in HA. apply At_advance in HA.
    rewrite zlen_app, enc_uint_len in HA. destruct Ht as (Hl & _). rewrite Hl in HA. exact HA. }
  destruct (HB f (p + 8) rest (mkBlk (f_base f + p) (8 + zlen pl) tag) HA') as (q & Hq & Hr);
    [cbn [b_start b_size]; lia|reflexivity|].
  rewrite (bind_run _ _ _ _ _ _ Hq).
  pose proof (zlen_nonneg pl).
  erewrite bind_run; [|apply exit_block_at].
  - unfold ret. cbn [b_start b_size]. rewrite enc_block_len by apply Ht. unfold actual_size. do 2 f_equal. lia.
  - intros _. cbn [b_start b_size]. unfold actual_size. lia.
Qed.

Lemma with_block_Parses {A} (body : blk -> rd A) t pl tag want rs v :
  raw_tag t tag -> small_payload pl -> want = None \/ want = Some tag -> PB tag body pl v ->
  Parses (with_block want rs body) (enc_block t pl) v.
Proof. intros Ht Hs Hw HB f p rest HA. eapply with_block_At; eassumption. Qed.

(** Running [step] over a list of well-formed child blocks. *)
Inductive Steps {S : Type} (step : blk -> S -> rd S) : S -> list (bytes * bytes) -> S -> Prop :=
| Steps_nil s : Steps step s [] s
| Steps_cons s s' s'' t pl tag cs :
    raw_tag t tag -> small_payload pl -> PB tag (fun b => step b s) pl s' ->
    Steps step s' cs s'' -> Steps step s ((t, pl) :: cs) s''.

Lemma Steps_app {S : Type} (step : blk -> S -> rd S) s1 c1 s2 c2 s3 :
  Steps step s1 c1 s2 -> Steps step s2 c2 s3 -> Steps step s1 (c1 ++ c2) s3.
Proof. intros H; induction H; intros HN; cbn [app]; [assumption|]. econstructor; eauto. Qed.

Lemma children_loop_Steps {S : Type} (step : blk -> S -> rd S) s cs s' :
  Steps step s cs s' ->
  forall fuel b f p rest, (length cs < fuel)%nat ->
  At f p (flat_map enc_blk cs ++ rest) ->
  b_start b + b_size b = f_base f + p + zlen (flat_map enc_blk cs) ->
  children_loop fuel b step s f p = Ok (s', p + zlen (flat_map enc_blk cs)).
Proof.
  intros H; induction H as [s|s s' s'' t pl tag cs Ht Hs HB HS IH]; intros fuel b f p rest Hf HA HE.
  - destruct fuel as [|k]; [cbn in Hf; lia|]. cbn [children_loop flat_map] in *.
    rewrite zlen_nil in *. unfold has_child, get_remaining, bind.
    replace (b_start b + b_size b - (f_base f + p)) with 0 by lia. cbn. unfold ret. do 2 f_equal. lia.
  - destruct fuel as [|k]; [cbn in Hf; lia|]. cbn [children_loop flat_map] in *.
    change (enc_blk (t, pl)) with (enc_block t pl) in *.
    assert (zlen (enc_block t pl) = 8 + zlen pl) as HL by (apply enc_block_len; apply Ht).
    pose proof (zlen_nonneg pl). pose proof (zlen_nonneg (flat_map enc_blk cs)).
    assert (has_child b f p = Ok (true, p)) as Hh.
    { unfold has_child, get_remaining, bind. rewrite zlen_app in HE.
      replace (b_start b + b_size b - (f_base f + p) >=? 8) with true by lia. reflexivity. }
    rewrite (bind_run _ _ _ _ _ _ Hh).
    rewrite <- app_assoc in HA.
    rewrite (bind_run _ _ _ _ _ _ (with_block_At _ _ _ _ _ _ _ None false _ HA Ht Hs (or_introl eq_refl) HB)).
    apply At_advance in HA. rewrite zlen_app in HE.
    rewrite (IH k b f _ rest); [| cbn in Hf; lia | assumption | lia].
    rewrite zlen_app. do 2 f_equal. lia.
Qed.

Lemma blocks_length cs : Forall (fun c => zlen (fst c) = 4) cs -> zlen cs <= zlen (flat_map enc_blk cs).
Proof.
  intros H; induction H as [|c cs Hc Hcs IH]; cbn [flat_map]; [reflexivity|].
  change (enc_blk c) with (enc_block (fst c) (snd c)). rewrite zlen_cons, zlen_app, enc_block_len by assumption.
  pose proof (zlen_nonneg (snd c)). lia.
Qed.

Lemma Steps_tags {S : Type} (step : blk -> S -> rd S) s cs s' :
  Steps step s cs s' -> Forall (fun c => zlen (fst c) = 4) cs.
Proof. intros H; induction H as [|? ? ? ? ? ? ? Ht]; constructor; [apply Ht|assumption]. Qed.

Lemma PBx_children {S : Type} tag (step : blk -> S -> rd S) s cs s' :
  Steps step s cs s' -> PBx tag (fun b => children b step s) (flat_map enc_blk cs) s'.
Proof.
  intros H f p rest b HA HE _. unfold children. eapply children_loop_Steps; [eassumption| |eassumption|assumption].
  pose proof (blocks_length cs (Steps_tags _ _ _ _ H)) as HL.
  apply At_len in HA as HA'. destruct HA as [Hp _]. rewrite zlen_app in HA'. pose proof (zlen_nonneg rest).
  unfold fuel_of, zlen in *. lia.
Qed.

Lemma PBx_children_nil {S : Type} tag (step : blk -> S -> rd S) s : PBx tag (fun b => children b step s) [] s.
Proof. apply (PBx_children tag step s []). constructor. Qed.

Lemma PB_on_remaining {A} tag (inner : blk -> rd A) bs v :
  PB tag inner bs v -> PBx tag (fun b => on_remaining b inner) bs v.
Proof.
  intros H f p rest b HA HE HT. unfold on_remaining, read_remaining.
  pose proof (zlen_nonneg bs) as Hn.
  assert (exists q, inner b (mkFile bs (f_base f + p) false false) 0 = Ok (v, q)) as [q Hq].
  { destruct (H (mkFile bs (f_base f + p) false false) 0 [] b) as (q & Hq & _).
    - rewrite app_nil_r. apply At_start.
    - cbn [f_base]. lia.
    - assumption.
    - eauto. }
  unfold bind, base_tell, get_remaining. cbn [fst snd].
  replace (b_start b + b_size b - (f_base f + p)) with (zlen bs) by lia.
  destruct (zlen bs >? 0) eqn:E.
  - rewrite (Parses_fread (zlen bs) bs eq_refl f p rest HA). unfold ret. rewrite Hq. reflexivity.
  - assert (bs = []) as -> by (apply zlen_0_nil; lia).
    unfold ret. rewrite Hq. rewrite zlen_nil. do 2 f_equal. lia.
Qed.

(** Raw forms of the known tags. *)
Ltac solve_raw_tag := split; [reflexivity|split; [eexists; split; reflexivity|discriminate]].
Lemma raw_head : raw_tag T_head T_head. Proof. solve_raw_tag. Qed.
Lemma raw_segm : raw_tag T_segm T_segm. Proof. solve_raw_tag. Qed.
Lemma raw_flow : raw_tag T_flow T_flow. Proof. solve_raw_tag. Qed.
Lemma raw_tagtag : raw_tag T_tag T_tag. Proof. solve_raw_tag. Qed.
Lemma raw_grai : raw_tag T_grai T_grai. Proof. solve_raw_tag. Qed.
Lemma raw_gbhd : raw_tag T_gbhd T_gbhd. Proof. solve_raw_tag. Qed.
Lemma raw_grdt : raw_tag T_grdt T_grdt. Proof. solve_raw_tag. Qed.
Lemma raw_tils : raw_tag T_tils T_tils. Proof. solve_raw_tag. Qed.
Lemma raw_vghd : raw_tag T_vghd T_vghd. Proof. solve_raw_tag. Qed.
Lemma raw_comp : raw_tag T_comp T_comp. Proof. solve_raw_tag. Qed.
Lemma raw_cghd : raw_tag T_cghd T_cghd. Proof. solve_raw_tag. Qed.
Lemma raw_unof : raw_tag T_unof T_unof. Proof. solve_raw_tag. Qed.
Lemma raw_aghd : raw_tag T_aghd T_aghd. Proof. solve_raw_tag. Qed.
Lemma raw_cahd : raw_tag T_cahd T_cahd. Proof. solve_raw_tag. Qed.
Lemma raw_eghd : raw_tag T_eghd T_eghd. Proof. solve_raw_tag. Qed.
