(** The grains of a GrainWrapper, and the tools on them. *)
From Coq Require Import String Lia ZifyBool ZifyNat.
From Verif Require Import Base BaseProofs GsfPrim GsfPrimProofs GsfBlock GsfDecode CogEnums GsfEncode GsfSpec GsfFileSpec GsfEncState GsfEncSpec GsfEncodeProofs GsfEncFile GsfEncDecodeSpec GsfEncFacts
  PatternTime PatternSpec PyValue PyValueProofs JsonProofs GrainObj GrainSet GrainSetSpec GrainSetProofs GrainSetMain GrainSetShape GrainCopy GrainCopySpec GrainCopyProofs GrainCopyMade GrainCopyMain GrainCopyApart
  GrainGsf GrainGsfSpec GrainGsfFileSpec GrainGsfFile GrainGsfStream Wrap WrapSpec WrapProofs Tools ToolsSpec ToolsProofs.
Local Open Scope list_scope.

Lemma own_class o : of_own_type o -> o_class o = KGrain -> class_for (o_meta o) = Ok KGrain.
Proof.
  intros T C. unfold of_own_type, getattr in T. rewrite C in T. cbn [class_attrs app] in T. change (dget $"grain_type" common_attrs) with (Some (field $"grain_type")) in T.
  unfold field, ditem in T. unfold class_for. destruct (dget $"grain" (o_meta o)) as [v|]; [|reflexivity]. cbn [rbind] in T. destruct v as [| | | | | | | | | | d]; try discriminate T. cbn [sub as_dict rbind] in *.
  unfold ditem in T. destruct (dget $"grain_type" d) as [v|]; [|reflexivity]. apply Ok_eq in T. subst v. reflexivity.
Qed.
Lemma reads_meta o d w m : dget m (sorts (o_class o)) <> None -> getattr (mkO (o_class o) (o_meta o) d w) m = getattr o m.
Proof. intros M. destruct (data_reads o m M) as (f & F & G). unfold getattr. cbn [o_class]. rewrite F. apply G; reflexivity. Qed.
Lemma not_origin m : same_attr $"origin_timestamp" m = true -> m = $"origin_timestamp".
Proof.
  unfold same_attr. destruct (zlist_eqb $"origin_timestamp" m) eqn:E; [intros _; symmetry; apply zlist_eqb_eq; exact E|]. cbn [orb]. unfold two_names. cbn [existsb fst snd].
  repeat match goal with |- context [zlist_eqb $"origin_timestamp" ?n] => change (zlist_eqb $"origin_timestamp" n) with false end. cbn [andb]. rewrite !Bool.andb_false_r. discriminate.
Qed.
Lemma accepts_time ts eff : accepts Moment (PTime ts) eff -> eff = Reads (Ok (PTime ts)).
Proof.
  intros A. remember Moment as so. remember (PTime ts) as v. destruct A; try discriminate; subst.
  - congruence.
  - destruct H as [[s E]|[u E]]; discriminate E.
  - destruct (H0 ts eq_refl).
Qed.
Lemma stamps now t ts d : made t -> of_own_type t -> o_class t <> KEvent ->
  exists o' o, rbind (copy_obj now t) (set_attr $"origin_timestamp" (PTime ts)) = Ok o' /\ set_data (ABytes d) o' = Ok o /\ stamped t o ts d.
Proof.
  intros M T N. assert (F : faithful t) by exact (made_faithful t M (own_class t T)).
  destruct (copy_same now t F N) as [-> _]. cbn [rbind]. pose proof (made_shaped t M) as S.
  assert (SC : shaped (copied t)) by exact S.
  assert (SO : dget $"origin_timestamp" (sorts (o_class (copied t))) = Some Moment) by (unfold copied; cbn [o_class]; destruct (o_class t); reflexivity).
  destruct (assignment (copied t) $"origin_timestamp" Moment (PTime ts) SC SO) as (eff & A & R). { split; [constructor|exact I]. }
  apply accepts_time in A. subst eff. destruct R as (o' & -> & _ & U & G). exists o'.
  assert (C : o_class o' = o_class t) by exact (ut_class _ _ U). assert (N' : o_class o' <> KEvent) by (rewrite C; exact N).
  exists (mkO (o_class o') (o_meta o') (Some d) None). split; [reflexivity|]. split; [unfold set_data; destruct (o_class o'); try reflexivity; destruct (N' eq_refl)|].
  assert (K : forall m, dget m (sorts (o_class t)) <> None -> getattr (mkO (o_class o') (o_meta o') (Some d) None) m = if same_attr $"origin_timestamp" m then Ok (PTime ts) else getattr t m).
  { intros m H. rewrite (reads_meta o') by (rewrite C; exact H). rewrite G by exact H. destruct (same_attr _ m); [reflexivity|]. exact (reads_meta t _ _ m H). }
  constructor.
  - exact C.
  - intros m H NE. rewrite (K m H). destruct (same_attr _ m) eqn:E; [destruct (NE (not_origin m E))|reflexivity].
  - rewrite K by (destruct (o_class t); discriminate). reflexivity.
  - split; [|reflexivity]. unfold get_data. cbn [o_class o_data]. destruct (o_class o'); try reflexivity; destruct (N' eq_refl).
  - exact (ut_labels _ _ U).
  - exact (ut_components _ _ U).
  - exact (ut_offsets _ _ U).
Qed.
(** The grains of Wrap.v, as objects. *)
Lemma wrapped_are {St} k r (read : reader St) size now t : made t -> of_own_type t -> o_class t <> KEvent -> forall fuel c st,
  exists os, wrapped_grains k r read size now t c st fuel = (os, snd (grains k r read size t c st fuel)) /\
    Forall2 (fun o w => stamped t o (wg_origin w) (wg_data w)) os (fst (grains k r read size t c st fuel)).
Proof.
  intros M T N. induction fuel as [|fuel IH]; intros c st; [exists []; split; constructor|]. cbn [wrapped_grains grains].
  destruct (read size st) as [st' [d|e]] eqn:R.
  - destruct (stamps now t (from_count k c (fst r) (snd r)) d M T N) as (o' & o & -> & D & S).
    destruct (zlen d =? 0); [exists []; split; constructor|]. rewrite D. destruct (IH (c + 1) st') as (os & -> & F).
    destruct (grains k r read size t (c + 1) st' fuel) as [gs e]. exists (o :: os). split; [reflexivity|]. constructor; [exact S|exact F].
  - destruct (stamps now t (from_count k c (fst r) (snd r)) [] M T N) as (o' & _ & -> & _).
    exists []. destruct e; split; constructor.
Qed.

(** ** What the encoder reads from them. *)
Definition restamp (g : grain) (ts : Z) (d : bytes) : grain :=
  mkGrain (g_src g) (g_flow g) ts (g_sync g) (g_rate g) (g_dur g) (g_tils g) (g_body g) (zlen d) (Some d).
Lemma read_body_same t o ts d : stamped t o ts d -> of_own_type t -> read_body o = read_body t.
Proof.
  intros S T. unfold read_body. assert (A : forall A f n, dget n (sorts (o_class t)) <> None -> n <> $"origin_timestamp" -> @attr A f n o = @attr A f n t).
  { intros A f n H1 H2. unfold attr. rewrite (sp_same _ _ _ _ S n H1 H2). reflexivity. }
  rewrite (sp_same _ _ _ _ S $"grain_type") by (destruct (o_class t); discriminate). unfold of_own_type in T. rewrite T. cbn [rbind].
  pose proof (sp_components _ _ _ _ S) as SC. pose proof (sp_offsets _ _ _ _ S) as SO. pose proof (sp_class _ _ _ _ S) as C. clear S T.
  destruct (o_class t) eqn:K; cbn [own_type].
  - reflexivity.
  - change (type_is (PStr $"video") $"video") with true. cbv iota. unfold read_video. rewrite !A by discriminate. unfold components. rewrite C, K, SC by reflexivity. reflexivity.
  - change (type_is (PStr $"coded_video") $"video") with false. change (type_is (PStr $"coded_video") $"coded_video") with true. cbv iota.
    unfold read_coded. rewrite !A by discriminate. unfold unit_offsets. rewrite C, K, SO by reflexivity. reflexivity.
  - change (type_is (PStr $"audio") $"video") with false. change (type_is (PStr $"audio") $"coded_video") with false. change (type_is (PStr $"audio") $"audio") with true. cbv iota.
    unfold read_audio. rewrite !A by discriminate. reflexivity.
  - change (type_is (PStr $"coded_audio") $"video") with false. change (type_is (PStr $"coded_audio") $"coded_video") with false. change (type_is (PStr $"coded_audio") $"audio") with false.
    change (type_is (PStr $"coded_audio") $"coded_audio") with true. cbv iota. unfold read_coded_audio. rewrite !A by discriminate. reflexivity.
  - reflexivity.
Qed.
Lemma restamp_read t o ts d g : stamped t o ts d -> of_own_type t -> read_grain t = Ok g -> read_grain o = Ok (restamp g ts d).
Proof.
  intros S T R. assert (A : forall A f n, dget n (sorts (o_class t)) <> None -> n <> $"origin_timestamp" -> @attr A f n o = @attr A f n t).
  { intros A f n H1 H2. unfold attr. rewrite (sp_same _ _ _ _ S n H1 H2). reflexivity. }
  unfold read_grain in *. rewrite (A _ as_id $"source_id"), (A _ as_id $"flow_id"), (A _ as_time $"sync_timestamp"), (A _ as_frac $"rate"), (A _ as_frac $"duration") by (first [discriminate|destruct (o_class t); discriminate]).
  rewrite (sp_labels _ _ _ _ S), (read_body_same t o ts d S T).
  destruct (sp_data _ _ _ _ S) as [D _].
  assert (L : attr to_int $"length" o = Ok (zlen d)).
  { unfold attr, getattr. assert (L : dget $"length" (class_attrs (o_class o) ++ common_attrs) = Some get_length) by (destruct (o_class o); reflexivity). rewrite L. unfold get_length. rewrite D. reflexivity. }
  assert (O : attr as_time $"origin_timestamp" o = Ok ts) by (unfold attr; rewrite (sp_time _ _ _ _ S); reflexivity).
  rewrite L, O, D.
  apply rbind_ok in R as (src & -> & R). apply rbind_ok in R as (flow & -> & R). apply rbind_ok in R as (t0 & _ & R). apply rbind_ok in R as (sy & -> & R).
  apply rbind_ok in R as (r & -> & R). apply rbind_ok in R as (du & -> & R). apply rbind_ok in R as (ls & -> & R). apply rbind_ok in R as (b & -> & R).
  apply rbind_ok in R as (n & _ & R). apply rbind_ok in R as (x & _ & R). apply Ok_eq in R. subst g. reflexivity.
Qed.
Lemma restamp_writable t o ts d g : stamped t o ts d -> writable t g -> o_class t <> KEvent -> ts_fits ts -> bytes_ok d -> writable o (restamp g ts d).
Proof.
  intros S (T & R & G & _) N F B. split; [|split; [|split]].
  - unfold of_own_type. rewrite (sp_class _ _ _ _ S). rewrite (sp_same _ _ _ _ S $"grain_type") by (first [discriminate|destruct (o_class t); discriminate]). exact T.
  - exact (restamp_read t o ts d g S T R).
  - destruct G as (G1 & G2 & _ & G4 & G5 & G6 & G7 & G8 & G9 & G10 & G11 & _). unfold grain_ok, restamp.
    cbn [g_src g_flow g_origin g_sync g_rate g_dur g_tils g_body g_len g_data opt_bytes].
    split; [exact G1|]. split; [exact G2|]. split; [exact F|]. split; [exact G4|]. split; [exact G5|]. split; [exact G6|]. split; [exact G7|]. split; [exact G8|]. split; [exact G9|].
    split; [exact G10|]. split; [exact G11|]. split; [reflexivity|exact B].
  - intros E. rewrite (sp_class _ _ _ _ S) in E. destruct (N E).
Qed.
Lemma restamp_size g ts d : grain_ok g -> zlen (gbytes 9 (1, restamp g ts d)) = zlen (gbytes 9 (1, g)) - zlen (opt_bytes (g_data g)) + zlen d.
Proof.
  intros G. destruct (enc_grain_ok 9 1 g G) as [bs E]. unfold gbytes. cbn [fst snd]. rewrite E. unfold enc_grain in *. cbn [restamp g_body].
  destruct (enc_body (g_body g)) as [body|]; [|discriminate]. cbn [rbind] in *. apply Ok_eq in E. subst bs.
  unfold restamp. cbn [g_src g_flow g_tils g_body g_rate g_dur g_data opt_bytes].
  rewrite !zlen_app, !enc_uint_len, !enc_times_len, !enc_rational_len. lia.
Qed.

(** ** The tools. *)
Lemma template_attrs t g : read_grain t = Ok g -> getattr t $"origin_timestamp" = Ok (PTime (g_origin g)) /\ getattr t $"rate" = Ok (PFrac (fst (g_rate g)) (snd (g_rate g))) /\
  attr as_id $"flow_id" t = Ok (g_flow g).
Proof.
  intros R. unfold read_grain in R.
  apply rbind_ok in R as (src & _ & R). apply rbind_ok in R as (flow & F & R). apply rbind_ok in R as (t0 & T & R). apply rbind_ok in R as (sy & _ & R).
  apply rbind_ok in R as (r & Q & R). apply rbind_ok in R as (du & _ & R). apply rbind_ok in R as (ls & _ & R). apply rbind_ok in R as (b & _ & R).
  apply rbind_ok in R as (n & _ & R). apply rbind_ok in R as (x & _ & R). apply Ok_eq in R. subst g. cbn [g_origin g_rate g_flow].
  split; [|split; [|exact F]].
  - unfold attr in T. apply rbind_ok in T as (v & -> & T). destruct v; try discriminate T. cbn [as_time] in T. apply Ok_eq in T. subst. reflexivity.
  - unfold attr in Q. apply rbind_ok in Q as (v & -> & Q). destruct v; try discriminate Q. cbn [as_frac] in Q. apply Ok_eq in Q. subst. reflexivity.
Qed.
Lemma nth_map_inv {A B} (f : A -> B) l i b : nth_error (map f l) i = Some b -> exists a, nth_error l i = Some a /\ b = f a.
Proof. revert i. induction l as [|a l IH]; intros [|i] H; try discriminate H; cbn in *; [injection H as <-; eauto|apply IH; exact H]. Qed.
Lemma forall2_nth {A B} (P : A -> B -> Prop) l l' : Forall2 P l l' -> List.length l = List.length l' /\ forall i a b, nth_error l i = Some a -> nth_error l' i = Some b -> P a b.
Proof.
  intros F. induction F as [|a b l l' H F [IH1 IH2]]; [split; [reflexivity|intros [|i] a b H; discriminate H]|]. split; [cbn; congruence|].
  intros [|i] a' b' E1 E2; cbn in *; [injection E1 as <-; injection E2 as <-; exact H|exact (IH2 i a' b' E1 E2)].
Qed.
Lemma nth_between a b i : (i < Z.to_nat (b - a))%nat -> nth_error (between a b) i = Some (a + Z.of_nat i).
Proof.
  intros H. unfold between. rewrite nth_error_map. assert (E : nth_error (seq 0 (Z.to_nat (b - a))) i = Some i); [|rewrite E; reflexivity].
  rewrite (nth_error_nth' _ 0%nat) by (rewrite seq_length; exact H). rewrite seq_nth by exact H. reflexivity.
Qed.
Lemma wrap_generic {St} k first (read : reader St) now t g size st fuel (ws : list (wrapped gobj)) x out id created :
  made t -> o_class t <> KEvent -> writable t g -> zlen (gbytes 9 (1, g)) + size < 4294967296 -> expected_length t = Ok size ->
  grains k (g_rate g) read size t (first (g_origin g) (g_rate g)) st fuel = (ws, x) -> i64 (zlen ws) ->
  Forall (fun w => 0 < zlen (wg_data w) <= size /\ bytes_ok (wg_data w) /\ ts_fits (wg_origin w)) ws ->
  origins_from k (g_rate g) (first (g_origin g) (g_rate g)) ws ->
  uuid_ok id -> dt_valid created = true -> prior out = [] ->
  exists out' os, wrap_to_gsf id created t (grain_wrapper k first read now t st fuel) out = (out', match x with None => Ok tt | Some e => Err e end) /\
    in_grains k (g_rate g) (first (g_origin g) (g_rate g)) t (map wg_data ws) os /\
    (forall ids now seekable strict fwd, extract ids now seekable (mkFile (GsfEncState.o_data out') 0 strict fwd) = (if in_ids ids 1 then concat (map wg_data ws) else [], Ok tt)) /\
    (forall k strict fwd, at_once k -> exists s l, decode_file k (mkFile (GsfEncState.o_data out') 0 strict fwd) = Ok (s, (l, s, Done)) /\
      Forall2 (fun o i => i_local i = 1 /\ comes_back 9 (GsfEncState.o_data out') o i) (if in_ids (k_ids k) 1 then os else []) l).
Proof.
  intros M N W Z X E C F O U D P. destruct W as (T & R & G & _). destruct (template_attrs t g R) as (A1 & A2 & A3).
  destruct (wrapped_are k (g_rate g) read size now t M T N fuel (first (g_origin g) (g_rate g)) st) as (os & Y & S). rewrite E in Y, S. cbn [fst snd] in Y, S.
  assert (GW : grain_wrapper k first read now t st fuel = (os, x)).
  { unfold grain_wrapper. rewrite X. cbn [rbind]. unfold attr. rewrite A1. cbn [rbind as_time]. rewrite A2. cbn [rbind as_frac].
    replace (fst (g_rate g), snd (g_rate g)) with (g_rate g) by (destruct (g_rate g); reflexivity). exact Y. }
  rewrite GW.
  set (gs := map (fun w => restamp g (wg_origin w) (wg_data w)) ws).
  assert (WR : Forall2 writable os gs).
  { unfold gs. clear - S F N T R G. induction S as [|o w os ws S0 S IH]; [constructor|]. cbn [map]. constructor; [|exact (IH (Forall_inv_tail F))].
    destruct (Forall_inv F) as (_ & B & TF). apply (restamp_writable t o (wg_origin w) (wg_data w) g S0); try assumption. split; [exact T|]. split; [exact R|]. split; [exact G|]. intros Q. destruct (N Q). }
  assert (FT : Forall (grain_fits 9) (map (pair 1) gs)).
  { unfold gs. clear - F WR G Z. apply Forall_forall. intros lg I. apply in_map_iff in I as (g' & <- & I).
    assert (OK : grain_ok g') by (fold gs in I; clear - I WR; revert I; unfold gs in *; induction WR as [|o g0 os gs' W WR IH]; intros I; [destruct I|]; destruct I as [-> |I]; [apply W|exact (IH I)]).
    apply in_map_iff in I as (w & <- & I). rewrite Forall_forall in F. destruct (F w I) as (L & _).
    split; [cbn; unfold u16; lia|]. split; [exact OK|]. rewrite (restamp_size g _ _ G). pose proof (zlen_nonneg (opt_bytes (g_data g))). lia. }
  assert (LN : i64 (zlen gs)) by (unfold gs, zlen in *; rewrite map_length; exact C).
  assert (HP : Forall2 has_payload os (map wg_data ws)).
  { clear - S F N. induction S as [|o w os ws S0 S IH]; [constructor|]. cbn [map]. constructor; [|exact (IH (Forall_inv_tail F))].
    split; [apply (sp_data _ _ _ _ S0)|]. rewrite (sp_class _ _ _ _ S0). split; [exact N|]. intros _ E. destruct (Forall_inv F) as ((L & _) & _). rewrite E in L. discriminate L. }
  assert (V : uuid_ok (g_flow g)) by apply G.
  destruct (extract_wrapped id created t (g_flow g) os gs (map wg_data ws) x out A3 V U D P WR FT LN HP) as (out' & Q1 & Q2).
  destruct (file_back id created t (g_flow g) os gs x out A3 V U D P WR FT LN) as (out2 & Q3 & Q4).
  rewrite Q1 in Q3. assert (out' = out2) as <- by congruence.
  exists out', os. split; [exact Q1|]. split; [|split; [exact Q2|exact Q4]].
  destruct (forall2_nth _ _ _ S) as [L1 L2]. split; [rewrite map_length; exact L1|].
  intros i o b I1 I2. apply nth_map_inv in I2 as (w & I2 & ->). pose proof (L2 i o w I1 I2) as S0.
  assert (OR : wg_origin w = grid k (g_rate g) (first (g_origin g) (g_rate g) + Z.of_nat i)).
  { unfold origins_from in O. assert (B : nth_error (map wg_origin ws) i = Some (wg_origin w)) by (rewrite nth_error_map, I2; reflexivity).
    rewrite O, nth_error_map, nth_between in B. - cbn in B. congruence. - apply nth_error_Some_lt in I2 || (assert (nth_error ws i <> None) by congruence; apply nth_error_Some in H; unfold zlen; lia). }
  rewrite <- OR. exact S0.
Qed.
Lemma concat_ok (bs : list bytes) : bytes_ok (concat bs) -> Forall bytes_ok bs.
Proof. intros B. induction bs as [|b bs IH]; [constructor|]. cbn [concat] in B. apply Forall_app in B as [B1 B2]. constructor; [exact B1|exact (IH B2)]. Qed.
Lemma fits_wrapped k r c size d (ws : list (wrapped gobj)) : 0 < size -> bytes_ok d -> concat (map wg_data ws) = d -> origins_from k r c ws ->
  Forall (fun w => 0 < zlen (wg_data w) <= size) ws -> (forall i w, nth_error ws i = Some w -> Z.of_nat i * size < zlen d) ->
  (forall i, 0 <= i -> i * size < zlen d -> ts_fits (grid k r (c + i))) ->
  Forall (fun w => 0 < zlen (wg_data w) <= size /\ bytes_ok (wg_data w) /\ ts_fits (wg_origin w)) ws.
Proof.
  intros P B E O F I T. apply Forall_forall. intros w IN. rewrite Forall_forall in F. split; [exact (F w IN)|]. split.
  - rewrite <- E in B. apply concat_ok in B. rewrite Forall_forall in B. apply B. apply in_map. exact IN.
  - apply In_nth_error in IN as (i & IN). pose proof (I i w IN) as L. unfold origins_from in O.
    assert (X : nth_error (map wg_origin ws) i = Some (wg_origin w)) by (rewrite nth_error_map, IN; reflexivity).
    assert (LT : (i < List.length ws)%nat) by (apply nth_error_Some; congruence).
    rewrite O, nth_error_map, nth_between in X by (unfold zlen; lia). cbn [option_map] in X. injection X as <-. apply T; lia.
Qed.
Lemma few_pieces (ws : list (wrapped gobj)) d : concat (map wg_data ws) = d -> Forall (fun w => 0 < zlen (wg_data w)) ws -> zlen ws <= zlen d.
Proof.
  intros <- F. induction F as [|w ws L F IH]; [cbn; lia|]. cbn [map concat]. rewrite zlen_app. unfold zlen at 1. cbn [List.length]. unfold zlen in IH at 1. lia.
Qed.

Theorem wrapped_file k first now t g size d out id created fuel :
  made t -> o_class t <> KEvent -> writable t g -> zlen (gbytes 9 (1, g)) + size < 4294967296 -> expected_length t = Ok size -> 0 < size ->
  bytes_ok d -> i64 (zlen d) -> (forall i, 0 <= i -> i * size < zlen d -> ts_fits (grid k (g_rate g) (first (g_origin g) (g_rate g) + i))) ->
  uuid_ok id -> dt_valid created = true -> prior out = [] -> (Z.to_nat (zlen d) < fuel)%nat ->
  exists out' bs os, wrap_to_gsf id created t (grain_wrapper k first src_read now t (buffered d) fuel) out = (out', Ok tt) /\
    pieces size d bs /\ in_grains k (g_rate g) (first (g_origin g) (g_rate g)) t bs os /\
    (forall ids now seekable strict fwd, extract ids now seekable (mkFile (GsfEncState.o_data out') 0 strict fwd) = (if in_ids ids 1 then d else [], Ok tt)) /\
    (forall k strict fwd, at_once k -> exists s l, decode_file k (mkFile (GsfEncState.o_data out') 0 strict fwd) = Ok (s, (l, s, Done)) /\
      Forall2 (fun o i => i_local i = 1 /\ comes_back 9 (GsfEncState.o_data out') o i) (if in_ids (k_ids k) 1 then os else []) l).
Proof.
  intros M N W Z X P B I T U D O F.
  destruct (grains_file (A := gobj) k (g_rate g) size t P fuel (first (g_origin g) (g_rate g)) d F) as (ws & E & C & A & OR & L).
  assert (AP : Forall (fun w => 0 < zlen (wg_data w)) ws) by (apply Forall_forall; intros w IN; rewrite Forall_forall in A; apply (A w IN)).
  assert (LT : forall i w, nth_error ws i = Some w -> Z.of_nat i * size < zlen d).
  { intros i w IN. pose proof (L i w IN) as Q. apply nth_error_In in IN. rewrite Forall_forall in AP. specialize (AP w IN). cbv beta in AP. lia. }
  assert (AS : Forall (fun w => 0 < zlen (wg_data w) <= size) ws).
  { apply Forall_forall. intros w IN. rewrite Forall_forall in AP. pose proof (AP w IN). cbv beta in H. apply In_nth_error in IN as (i & IN). pose proof (L i w IN). lia. }
  destruct (wrap_generic k first src_read now t g size (buffered d) fuel ws None out id created M N W Z X E) as (out' & os & Q1 & Q2 & Q3 & Q4); try assumption.
  - pose proof (few_pieces ws d C AP). pose proof (zlen_nonneg ws). unfold i64 in *. lia.
  - exact (fits_wrapped k (g_rate g) (first (g_origin g) (g_rate g)) size d ws P B C OR AS LT T).
  - exists out', (map wg_data ws), os. split; [exact Q1|]. split; [|split; [exact Q2|split; [|exact Q4]]].
    + split; [exact C|]. intros i b IN. apply nth_map_inv in IN as (w & IN & ->). split; [exact (L i w IN)|]. apply nth_error_In in IN. rewrite Forall_forall in AP. exact (AP w IN).
    + rewrite <- C. exact Q3.
Qed.
Theorem wrapped_pipe k first now t g size s pos out id created fuel :
  made t -> o_class t <> KEvent -> writable t g -> zlen (gbytes 9 (1, g)) + size < 4294967296 -> expected_length t = Ok size -> 0 < size ->
  fragments_ok s -> bytes_ok (concat s) -> i64 (zlen (concat s)) ->
  (forall i, 0 <= i -> i * size < zlen (concat s) -> ts_fits (grid k (g_rate g) (first (g_origin g) (g_rate g) + i))) ->
  uuid_ok id -> dt_valid created = true -> prior out = [] -> (Z.to_nat (zlen (concat s)) < fuel)%nat ->
  let d := zfirst (zlen (concat s) / size * size) (concat s) in
  exists out' bs os, wrap_to_gsf id created t (grain_wrapper k first pipe_read now t (mkPipe s pos) fuel) out = (out', Ok tt) /\
    concat bs = d /\ Forall (fun b => zlen b = size) bs /\ in_grains k (g_rate g) (first (g_origin g) (g_rate g)) t bs os /\
    (forall ids now seekable strict fwd, extract ids now seekable (mkFile (GsfEncState.o_data out') 0 strict fwd) = (if in_ids ids 1 then d else [], Ok tt)).
Proof.
  intros M N W Z X P S B I T U D O F d.
  destruct (grains_pipe (A := gobj) k (g_rate g) size t P fuel (first (g_origin g) (g_rate g)) s pos S F) as (ws & E & C & A & OR). fold d in C.
  assert (AP : Forall (fun w => 0 < zlen (wg_data w)) ws) by (apply Forall_forall; intros w IN; rewrite Forall_forall in A; destruct (A w IN); lia).
  assert (AS : Forall (fun w => 0 < zlen (wg_data w) <= size) ws) by (apply Forall_forall; intros w IN; rewrite Forall_forall in A; destruct (A w IN); lia).
  assert (DL : zlen d <= zlen (concat s)) by (unfold d; rewrite zfirst_firstn; unfold zlen; rewrite firstn_length; lia).
  assert (LEN : zlen d = zlen ws * size).
  { rewrite <- C. clear - A. induction A as [|w ws [_ L] A IH]; [reflexivity|]. cbn [map concat]. rewrite zlen_app, IH, L. unfold zlen. cbn [List.length]. lia. }
  assert (LT : forall i w, nth_error ws i = Some w -> Z.of_nat i * size < zlen d).
  { intros i w IN. assert ((i < List.length ws)%nat) by (apply nth_error_Some; congruence). rewrite LEN. unfold zlen. nia. }
  destruct (wrap_generic k first pipe_read now t g size (mkPipe s pos) fuel ws None out id created M N W Z X E) as (out' & os & Q1 & Q2 & Q3 & Q4); try assumption.
  - pose proof (few_pieces ws d C AP). pose proof (zlen_nonneg ws). unfold i64 in *. lia.
  - apply (fits_wrapped k (g_rate g) (first (g_origin g) (g_rate g)) size d ws P); try assumption; [exact (bytes_ok_zfirst _ _ B)|]. intros i H1 H2. apply T; lia.
  - exists out', (map wg_data ws), os. split; [exact Q1|]. split; [exact C|]. split; [|split; [exact Q2|]].
    + apply Forall_forall. intros b IN. apply in_map_iff in IN as (w & <- & IN). rewrite Forall_forall in A. apply (A w IN).
    + intros ids now' sk strict fwd. rewrite Q3, C. reflexivity.
Qed.
