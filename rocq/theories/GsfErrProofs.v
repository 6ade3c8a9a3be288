(** Which exceptions decoding can raise, and the checks on the first twelve bytes. *)
From Verif Require Import Base BaseProofs Utf8 Utf8Proofs GsfPrim GsfPrimProofs GsfPrimFacts GsfBlock GsfBlockProofs
  GsfDecode GsfTermProofs.
From Coq Require Import ZifyBool ZifyNat.
Ltac Zify.zify_post_hook ::= Z.div_mod_to_equations.

(** The exceptions of readers below the file header. *)
Definition inner_err (e : err) : Prop := e = EDecode \/ e = EEof \/ e = EUnicode \/ e = EValue \/ e = EFuel.

Definition Errs {A} (m : rd A) : Prop := Good m /\ forall f p e, 0 <= p -> m f p = Err e -> inner_err e.

Lemma Errs_ret {A} (a : A) : Errs (ret a). Proof. split; [apply Good_ret|]. intros f p e _ H. discriminate. Qed.
Lemma Errs_fail {A} e : inner_err e -> e <> EFuel -> Errs (@fail A e).
Proof. intros H HF. split; [now apply Good_fail|]. intros f p e' _ E. unfold fail in E. congruence. Qed.
Lemma Errs_bind {A B} (m : rd A) (k : A -> rd B) : Errs m -> (forall a, Errs (k a)) -> Errs (bind m k).
Proof.
  intros [G1 H1] H2. split; [apply Good_bind; [exact G1|apply H2]|].
  intros f p e Hp E. unfold bind in E. specialize (G1 f p Hp). destruct (m f p) as [[a q]|e'] eqn:E1.
  - refine (proj2 (H2 a) f q e _ E). lia.
  - apply (H1 f p e Hp). congruence.
Qed.
Lemma Errs_if {A} (c : bool) (m n : rd A) : Errs m -> Errs n -> Errs (if c then m else n).
Proof. destruct c; auto. Qed.
Lemma Errs_fread n : Errs (fread n).
Proof.
  split; [apply Good_fread|]. intros f p e _. unfold fread. destruct (_ && _); [|discriminate].
  intros H. right; left. congruence.
Qed.
Lemma Errs_fskip n : 0 <= n -> Errs (fskip n).
Proof. intros Hn. split; [now apply Good_fskip|]. intros f p e _ H. discriminate. Qed.
Lemma Errs_base_tell : Errs base_tell.
Proof. split; [intros f p Hp; cbn; lia|]. intros f p e _ H. discriminate. Qed.
Lemma Errs_get_remaining b : Errs (get_remaining b).
Proof. split; [intros f p Hp; cbn; lia|]. intros f p e _ H. discriminate. Qed.
Lemma Errs_repeatm {A} n (m : rd A) : Errs m -> Errs (repeatm n m).
Proof.
  intros H; induction n as [|n IH]; cbn [repeatm]; [apply Errs_ret|].
  apply Errs_bind; [exact H|]. intros a. apply Errs_bind; [exact IH|]. intros l. apply Errs_ret.
Qed.

Ltac inner := unfold inner_err; auto 6.
Ltac errs :=
  repeat first
    [ apply Errs_ret | apply Errs_fread | apply Errs_fskip; lia | apply Errs_fail; [inner|discriminate]
    | apply Errs_base_tell | apply Errs_get_remaining | apply Errs_repeatm | assumption
    | match goal with |- Errs (bind _ _) => apply Errs_bind; [|intros ?] end
    | match goal with |- Errs (if _ then _ else _) => apply Errs_if end
    | match goal with |- Errs (let '(_, _) := ?x in _) => destruct x end
    | match goal with |- Errs (match ?x with Some _ => _ | None => _ end) => destruct x end ].

Lemma Errs_uint n : Errs (read_uint n). Proof. unfold read_uint; errs. Qed.
Lemma Errs_string n : Errs (read_string n). Proof. unfold read_string; errs. Qed.
Lemma Errs_uuid : Errs read_uuid. Proof. unfold read_uuid; errs. Qed.

Lemma Errs_sint n : Errs (read_sint n). Proof. unfold read_sint; errs. apply Errs_uint. Qed.
Ltac errd :=
  repeat first [ apply Errs_uint | apply Errs_string | apply Errs_uuid | apply Errs_sint | progress errs
               | progress unfold read_bool, read_optional_bool, read_optional_sint, read_rational, read_timestamp,
                   read_timestamp_v7, read_varstring, read_varbytes, read_datetime ].

Lemma Errs_read_tag_size : Errs read_tag_size. Proof. unfold read_tag_size, read_tag. errd. Qed.

Lemma enter_loop_errs want rs f : forall fuel p e, 0 <= p ->
  enter_loop fuel want rs (f_base f + p) f p = Err e -> inner_err e.
Proof.
  induction fuel as [|n IH]; intros p e Hp E; cbn [enter_loop] in E.
  - unfold fail in E. unfold inner_err. right; right; right; right. congruence.
  - unfold bind at 1 in E. pose proof (read_tag_size_good f p Hp) as G.
    destruct (read_tag_size f p) as [[[tag size] q]|e'] eqn:ET.
    2:{ apply (proj2 Errs_read_tag_size f p e Hp). congruence. }
    destruct G as [-> _]. destruct want as [w|]; [|discriminate].
    destruct (zlist_eqb tag w); [discriminate|]. destruct rs; [unfold fail in E; left; congruence|].
    unfold bind at 1, fseek in E. unfold actual_size in E.
    replace (f_fwd f && _) with false in E by (destruct (f_fwd f); cbn [andb]; lia).
    unfold bind at 1, base_tell in E. apply IH in E; [exact E|lia].
Qed.

Lemma Errs_enter want rs : Errs (enter want rs).
Proof.
  split.
  - intros f p Hp. pose proof (enter_good want rs f p Hp) as G. destruct (enter want rs f p) as [[b q]|e]; [lia|exact G].
  - intros f p e Hp. unfold enter, bind, base_tell. now apply enter_loop_errs.
Qed.

Lemma Errs_with_block {A} want rs (body : blk -> rd A) : (forall b, Errs (body b)) -> Errs (with_block want rs body).
Proof.
  intros H. split; [apply Good_with_block; intros b; apply H|].
  intros f p e Hp E. unfold with_block, bind in E. pose proof (enter_good want rs f p Hp) as G.
  destruct (enter want rs f p) as [[b q]|e'] eqn:EE.
  - pose proof (proj2 (H b) f q) as HB. destruct (body b f q) as [[a r]|e'']; [discriminate|].
    apply HB; [lia|congruence].
  - apply (proj2 (Errs_enter want rs) f p e Hp). congruence.
Qed.

Lemma Errs_has_child b : Errs (has_child b).
Proof. unfold has_child. errs. Qed.

Lemma children_loop_errs {S : Type} b (step : blk -> S -> rd S) f : (forall c s, Errs (step c s)) ->
  forall fuel s p e, 0 <= p -> children_loop fuel b step s f p = Err e -> inner_err e.
Proof.
  intros H. induction fuel as [|n IH]; intros s p e Hp E; cbn [children_loop] in E.
  - unfold fail in E. unfold inner_err. right; right; right; right. congruence.
  - unfold bind at 1 in E. destruct (Errs_has_child b) as [G HE]. specialize (G f p Hp).
    destruct (has_child b f p) as [[h q]|e'] eqn:EH; [|apply (HE f p e Hp); congruence].
    destruct h; [|discriminate]. unfold bind at 1 in E.
    destruct (Errs_with_block None false (fun c => step c s) (fun c => H c s)) as [G2 HE2].
    specialize (G2 f q ltac:(lia)).
    destruct (with_block None false (fun c => step c s) f q) as [[s' r]|e'] eqn:EW.
    + apply IH in E; [exact E|lia].
    + apply (HE2 f q e ltac:(lia)). congruence.
Qed.

Lemma Errs_children {S : Type} b (step : blk -> S -> rd S) s : (forall c s, Errs (step c s)) -> Errs (children b step s).
Proof.
  intros H. split; [apply Good_children; intros c s'; apply H|].
  intros f p e Hp. unfold children. now apply children_loop_errs.
Qed.

Lemma Errs_on_remaining {A} b (inner : blk -> rd A) : Errs (inner b) -> Errs (on_remaining b inner).
Proof.
  intros [G HI]. unfold on_remaining, read_remaining.
  apply Errs_bind; [errs|]. intros [d start].
  specialize (G (mkFile d start false false) 0 ltac:(lia)).
  destruct (inner b (mkFile d start false false) 0) as [[a q]|e] eqn:E; [errs|].
  apply Errs_fail; [|exact G]. refine (HI _ _ _ _ E). lia.
Qed.

Lemma Errs_decode_head b : Errs (decode_head b).
Proof.
  unfold decode_head. errd. apply Errs_children. intros c h. unfold head_child, decode_segm, decode_tag. errd.
  apply Errs_children. intros c' s. unfold segm_child, decode_flow, decode_tag. errd.
Qed.

Lemma Errs_decode_comps n : forall off, Errs (decode_comps n off).
Proof. induction n as [|n IH]; intros off; cbn [decode_comps]; errd. apply IH. Qed.

Lemma Errs_decode_gbhd major b : Errs (decode_gbhd major b).
Proof.
  unfold decode_gbhd. apply Errs_bind; [unfold decode_gbhd_fixed; errd|]. intros m.
  apply Errs_children. intros c s. unfold gbhd_child, decode_tils, decode_til, decode_vghd, decode_cghd,
    decode_aghd, decode_cahd, decode_key_temporal. errd.
  - apply Errs_children. intros c' s'. unfold vghd_child. errd. apply Errs_decode_comps.
  - apply Errs_children. intros c' s'. unfold cghd_child. errd.
Qed.

Lemma Errs_decode_grdt k b : Errs (decode_grdt k b).
Proof.
  split; [apply Good_decode_grdt|]. intros f p e Hp E. unfold decode_grdt in E. unfold bind at 1 in E.
  unfold get_remaining at 1 in E. destruct (_ >? 0) eqn:EZ; [|discriminate].
  destruct (k_back k && deferring (k_mode k)); [discriminate|].
  set (r := b_start b + b_size b - (f_base f + p)) in *.
  revert E. destruct (k_mode k); intros E;
    match type of E with ?m f p = _ => assert (Errs m) as [_ HM] end; try (apply (HM f p e Hp E)); errd.
Qed.

Lemma Errs_grain_turn k major : Errs (grain_turn k major).
Proof.
  unfold grain_turn. apply Errs_with_block. intros b. unfold grain_body. errd.
  - apply Errs_with_block. intros g. apply Errs_on_remaining, Errs_decode_gbhd.
  - apply Errs_has_child.
  - apply Errs_with_block. intros g. apply Errs_decode_grdt.
Qed.

(** ---------------------------------------------------------------- the checks on the first twelve bytes *)

Definition header_read : rd head := with_block (Some T_head) false (fun b => on_remaining b decode_head).

Lemma Errs_header_read : Errs header_read.
Proof. apply Errs_with_block. intros b. apply Errs_on_remaining, Errs_decode_head. Qed.

(** Reading the rest of the header raises one of three exceptions. *)
Definition head_err (e : err) : Prop := e = EDecode \/ e = EUnicode \/ e = EValue.

Lemma eof_to_decode_errs f p e : 0 <= p -> eof_to_decode header_read f p = Err e -> head_err e.
Proof.
  intros Hp. unfold eof_to_decode. destruct Errs_header_read as [G HE]. specialize (G f p Hp).
  destruct (header_read f p) as [[a q]|e'] eqn:E; [discriminate|].
  specialize (HE f p e' Hp E). unfold head_err.
  destruct HE as [->|[->|[->|[->| ->]]]]; intros H; try congruence; auto;
    (left + (right; left) + (right; right)); congruence.
Qed.

(** An eight-byte string whose text is the GSF magic is the magic itself. *)
Lemma magic_exact t s : zlen t = 8 -> bytes_ok t -> utf8_dec t = Some s -> clean_string s = T_SSBBgrsg -> t = T_SSBBgrsg.
Proof.
  intros HL HO HD HC. destruct (utf8_canonical t s HO HD) as [<- HS].
  assert (rstrip0 s = T_SSBBgrsg) as HR.
  { unfold clean_string in HC. destruct (rstrip0 s) as [|c r]; [discriminate|].
    destruct (c =? 0) eqn:E; [discriminate|]. exact HC. }
  assert (exists n, s = rstrip0 s ++ zeros n) as [n Hn].
  { clear. induction s as [|c s (n & IH)]; [exists O; reflexivity|]. cbn [rstrip0].
    destruct (rstrip0 s) as [|c' s'] eqn:E.
    - destruct (c =? 0) eqn:EC.
      + exists (S n). apply Z.eqb_eq in EC as ->. cbn [app] in *. rewrite IH. reflexivity.
      + exists n. rewrite IH. reflexivity.
    - exists n. cbn [app]. rewrite <- app_comm_cons in IH. now rewrite IH at 1. }
  rewrite Hn, HR, utf8_enc_app in HL |- *. rewrite zlen_app in HL. change (zlen (utf8_enc T_SSBBgrsg)) with 8 in HL.
  destruct n as [|n]; [reflexivity|].
  cbn [zeros repeat utf8_enc flat_map] in HL. rewrite zlen_app in HL.
  pose proof (utf8_enc1_len 0). match type of HL with _ + (_ + zlen ?x) = _ => pose proof (zlen_nonneg x) end. lia.
Qed.

Lemma read_string_cases n data base strict fwd p : 0 < n -> 0 <= p ->
  read_string n (mkFile data base strict fwd) p =
  if zlen data - p <? n then Err EEof
  else match utf8_dec (zfirst n (zskip p data)) with
       | Some s => Ok (clean_string s, p + n)
       | None => Err EDecode
       end.
Proof.
  intros Hn Hp. unfold read_string, bind, fread. cbn [f_data f_strict].
  assert (zlen (zfirst n (zskip p data)) = Z.min n (Z.max 0 (zlen data - p))) as HL.
  { rewrite zlen_zfirst by lia. destruct (Z.le_gt_cases p (zlen data)).
    - rewrite zlen_zskip by lia. lia.
    - rewrite zskip_all by lia. rewrite (zlen_nil (A:=Z)). lia. }
  destruct (zlen data - p <? n) eqn:E.
  - destruct (strict && _); [reflexivity|]. replace (_ =? n) with false by lia. reflexivity.
  - assert (zlen (zfirst n (zskip p data)) = n) as HE by lia. rewrite HE.
    replace (n <? n) with false by lia. rewrite andb_false_r. cbv beta iota. rewrite ?HE, Z.eqb_refl.
    destruct (utf8_dec _); reflexivity.
Qed.

Lemma read_uint_cases n data base strict fwd p : 0 < n -> 0 <= p ->
  read_uint n (mkFile data base strict fwd) p =
  if zlen data - p <? n then Err EEof else Ok (le_dec (zfirst n (zskip p data)), p + n).
Proof.
  intros Hn Hp. unfold read_uint, bind, fread. cbn [f_data f_strict].
  assert (zlen (zfirst n (zskip p data)) = Z.min n (Z.max 0 (zlen data - p))) as HL.
  { rewrite zlen_zfirst by lia. destruct (Z.le_gt_cases p (zlen data)).
    - rewrite zlen_zskip by lia. lia.
    - rewrite zskip_all by lia. rewrite (zlen_nil (A:=Z)). lia. }
  destruct (zlen data - p <? n) eqn:E.
  - destruct (strict && _); [reflexivity|]. replace (_ =? n) with false by lia. reflexivity.
  - assert (zlen (zfirst n (zskip p data)) = n) as HE by lia. rewrite HE.
    replace (n <? n) with false by lia. rewrite andb_false_r. cbv beta iota. rewrite ?HE, Z.eqb_refl. reflexivity.
Qed.

(** The two bytes of the major version. *)
Definition major_at (data : bytes) : Z := nth 8 data 0 + 256 * nth 9 data 0.

Lemma le2_at (data : bytes) : 10 <= zlen data -> le_dec (zfirst 2 (zskip 8 data)) = major_at data.
Proof.
  unfold major_at. intros H.
  do 10 (destruct data as [|? data]; [cbn in H; lia|]).
  rewrite zfirst_firstn, zskip_skipn. change (Z.to_nat 2) with 2%nat. change (Z.to_nat 8) with 8%nat.
  cbn [skipn firstn le_dec nth]. lia.
Qed.

Lemma decode_file_form k data strict fwd :
  let f := mkFile data 0 strict fwd in
  decode_file k f =
  if zlen data <? 8 then Err EEof
  else match utf8_dec (zfirst 8 data) with
       | None => Err EDecode
       | Some s =>
           if zlist_eqb (clean_string s) T_SSBBgrsg then
             if zlen data <? 12 then Err EEof
             else if version_ok (major_at data) then
               match eof_to_decode header_read f 12 with
               | Ok (h, q) => let s := mkSess (major_at data) (le_dec (zfirst 2 (zskip 10 data))) (Some h) in
                              Ok (s, grains_loop (fuel_of f) k s false f q)
               | Err e => Err e
               end
             else Err EBadVersion
           else Err EBadType
       end.
Proof.
  intros f. unfold decode_file, decode_file_headers, decode_ssb_header. fold header_read.
  rewrite !bind_bind. unfold bind at 1. unfold f at 1. rewrite read_string_cases by lia. fold f.
  replace (zlen data - 0) with (zlen data) by lia.
  replace (zskip 0 data) with data by (symmetry; rewrite zskip_skipn; reflexivity).
  destruct (zlen data <? 8) eqn:E8; [reflexivity|].
  destruct (utf8_dec (zfirst 8 data)) as [s|] eqn:ED; [|reflexivity].
  destruct (zlist_eqb (clean_string s) T_SSBBgrsg); [|reflexivity].
  unfold bind at 1. unfold ret at 1. rewrite bind_bind. unfold bind at 1.
  unfold f at 1. rewrite read_uint_cases by lia. fold f.
  destruct (zlen data - (0 + 8) <? 2) eqn:E10; [replace (zlen data <? 12) with true by lia; reflexivity|].
  rewrite bind_bind. unfold bind at 1. unfold f at 1. rewrite read_uint_cases by lia. fold f.
  destruct (zlen data - (0 + 8 + 2) <? 2) eqn:E12; [replace (zlen data <? 12) with true by lia; reflexivity|].
  replace (zlen data <? 12) with false by lia.
  change (0 + 8) with 8. rewrite le2_at by lia. change (8 + 2 + 2) with 12. change (8 + 2) with 10.
  unfold bind at 1. unfold ret at 1. cbv beta match.
  destruct (version_ok (major_at data)); [|reflexivity].
  unfold bind, ret. destruct (eof_to_decode header_read f 12) as [[h q]|e]; reflexivity.
Qed.

(** What decoding does with any byte string, by its first twelve bytes. *)
Lemma decode_file_cases k data strict fwd : bytes_ok data ->
  let r := decode_file k (mkFile data 0 strict fwd) in
  (zlen data < 8 /\ r = Err EEof) \/
  (8 <= zlen data /\ utf8_dec (zfirst 8 data) = None /\ r = Err EDecode) \/
  (8 <= zlen data /\ utf8_dec (zfirst 8 data) <> None /\ zfirst 8 data <> T_SSBBgrsg /\ r = Err EBadType) \/
  (8 <= zlen data < 12 /\ zfirst 8 data = T_SSBBgrsg /\ r = Err EEof) \/
  (12 <= zlen data /\ zfirst 8 data = T_SSBBgrsg /\ ~ (7 <= major_at data <= 9) /\ r = Err EBadVersion) \/
  (12 <= zlen data /\ zfirst 8 data = T_SSBBgrsg /\ 7 <= major_at data <= 9 /\
   match r with Ok (s, _) => s_major s = major_at data | Err e => head_err e end).
Proof.
  intros HO. pose proof (decode_file_form k data strict fwd) as H. cbv zeta in *.
  remember (decode_file k (mkFile data 0 strict fwd)) as r eqn:Er. clear Er.
  destruct (zlen data <? 8) eqn:E8; [left; split; [lia|exact H]|right].
  destruct (utf8_dec (zfirst 8 data)) as [s|] eqn:ED; [|left; split; [lia|split; [reflexivity|exact H]]]. right.
  destruct (zlist_eqb (clean_string s) T_SSBBgrsg) eqn:EM.
  2:{ left. split; [lia|]. split; [discriminate|]. split; [|exact H]. intros EQ. rewrite EQ in ED.
      vm_compute in ED. injection ED as <-. vm_compute in EM. discriminate. }
  right. apply zlist_eqb_eq in EM.
  assert (zfirst 8 data = T_SSBBgrsg) as EQ.
  { eapply magic_exact; [|apply bytes_ok_zfirst; exact HO|exact ED|exact EM]. rewrite zlen_zfirst by lia. lia. }
  destruct (zlen data <? 12) eqn:E12; [left; split; [lia|split; [exact EQ|exact H]]|]. right.
  assert (version_ok (major_at data) = true <-> 7 <= major_at data <= 9) as HV by (unfold version_ok; lia).
  destruct (version_ok (major_at data)).
  - right. split; [lia|]. split; [exact EQ|]. split; [apply HV; reflexivity|].
    pose proof (eof_to_decode_errs (mkFile data 0 strict fwd) 12) as HE.
    destruct (eof_to_decode header_read (mkFile data 0 strict fwd) 12) as [[h q]|e]; rewrite H; [reflexivity|].
    apply HE; [lia|reflexivity].
  - left. split; [lia|]. split; [exact EQ|]. split; [|exact H]. intros X. apply HV in X. discriminate.
Qed.

Ltac by_cases k data strict fwd HO :=
  let H := fresh "H" in
  pose proof (decode_file_cases k data strict fwd HO) as H; cbv zeta in H;
  remember (decode_file k (mkFile data 0 strict fwd)) as r;
  assert (zlen T_SSBBgrsg = 8) by reflexivity;
  assert (utf8_dec T_SSBBgrsg <> None) by (vm_compute; discriminate);
  let A := fresh "A" in let B := fresh "B" in let C := fresh "C" in let D := fresh "D" in
  destruct H as [(A & B)|[(A & B & C)|[(A & B & C & D)|[(A & B & C)|[(A & B & C & D)|(A & B & C & D)]]]]];
  split; intros X;
  first [ congruence | lia | tauto
        | solve [rewrite X in *; unfold head_err in *; intuition discriminate]
        | solve [destruct X as (X1 & X2 & X3); congruence || lia || tauto]
        | solve [destruct X as [X1|(X1 & X2)]; congruence || lia || tauto]
        | idtac ].

Theorem bad_type_iff k data strict fwd : bytes_ok data ->
  decode_file k (mkFile data 0 strict fwd) = Err EBadType <->
  8 <= zlen data /\ utf8_dec (zfirst 8 data) <> None /\ zfirst 8 data <> T_SSBBgrsg.
Proof. intros HO. by_cases k data strict fwd HO. Qed.

Theorem bad_version_iff k data strict fwd : bytes_ok data ->
  decode_file k (mkFile data 0 strict fwd) = Err EBadVersion <->
  12 <= zlen data /\ zfirst 8 data = T_SSBBgrsg /\ ~ (7 <= major_at data <= 9).
Proof. intros HO. by_cases k data strict fwd HO. Qed.

Theorem header_eof_iff k data strict fwd : bytes_ok data ->
  decode_file k (mkFile data 0 strict fwd) = Err EEof <->
  zlen data < 8 \/ (zlen data < 12 /\ zfirst 8 data = T_SSBBgrsg).
Proof.
  intros HO. by_cases k data strict fwd HO.
Qed.

(** ---------------------------------------------------------------- the exceptions of a whole decode *)

Lemma ssb_known_errs f p e : 0 <= p -> decode_file_headers true f p = Err e ->
  head_err e \/ e = EEof \/ e = EBadVersion.
Proof.
  intros Hp E. unfold decode_file_headers, decode_ssb_header in E.
  assert (Errs (ret tt ;;; major <- read_uint 2 ;; minor <- read_uint 2 ;; ret (major, minor))) as [G HE] by errd.
  specialize (G f p Hp). unfold bind at 1 in E.
  destruct ((ret tt ;;; major <- read_uint 2 ;; minor <- read_uint 2 ;; ret (major, minor)) f p) as [[[major minor] q]|e'] eqn:E1.
  - destruct (version_ok major); [|right; right; unfold fail in E; congruence].
    left. fold header_read in E. unfold bind in E. pose proof (eof_to_decode_errs f q e) as HH.
    destruct (eof_to_decode header_read f q) as [[h r]|e']; [discriminate|]. apply HH; [lia|congruence].
  - assert (e' = e) as -> by congruence. clear E. right; left. unfold bind, ret in E1.
    destruct f as [data base strict fwd]. rewrite read_uint_cases in E1 by lia.
    destruct (zlen data - p <? 2); [congruence|]. rewrite read_uint_cases in E1 by lia.
    destruct (zlen data - (p + 2) <? 2); [congruence|discriminate].
Qed.

Lemma grains_loop_errs k f : forall fuel s hc p, 0 <= p -> (0 < fuel)%nat -> zlen (f_data f) - p < Z.of_nat fuel ->
  forall e, snd (grains_loop fuel k s hc f p) = Raised e -> head_err e \/ e = EBadVersion.
Proof.
  induction fuel as [|n IH]; intros s hc p Hp H0 Hf e E; [lia|]. cbn [grains_loop] in E.
  assert (match (if hc then decode_file_headers true f p else Ok (s, p)) with
          | Ok (_, q) => p <= q | Err e => head_err e \/ e = EEof \/ e = EBadVersion end) as GH.
  { destruct hc; [|lia]. pose proof (Good_file_headers true f p Hp) as G.
    destruct (decode_file_headers true f p) as [[a q]|e'] eqn:E'; [exact G|]. eapply ssb_known_errs; eassumption. }
  destruct (if hc then decode_file_headers true f p else Ok (s, p)) as [[s' p']|e'].
  2:{ unfold head_err in *. destruct e'; cbn [snd] in E; inversion E; subst; intuition congruence. }
  pose proof (grain_turn_good k (s_major s') f p' ltac:(lia)) as GT.
  pose proof (proj2 (Errs_grain_turn k (s_major s')) f p') as GE.
  destruct (grain_turn k (s_major s') f p') as [[[c| |i] q]|e'].
  - eapply IH; [| | |exact E]; lia.
  - discriminate.
  - destruct (grains_loop n k s' false f q) as [[l s''] o] eqn:EL. cbn [snd] in E.
    eapply (IH s' false q); [| | |rewrite EL; exact E]; lia.
  - specialize (GE e' ltac:(lia) eq_refl). unfold inner_err, head_err in *.
    destruct e'; cbn [snd] in E; inversion E; subst; intuition congruence.
Qed.

(** Iterating raises only GSFDecodeError, UnicodeDecodeError, ValueError or the bad-version error (of a later file). *)
Theorem decode_file_errors k data strict fwd s l s' o :
  decode_file k (mkFile data 0 strict fwd) = Ok (s, (l, s', o)) ->
  o = Done \/ exists e, o = Raised e /\ (e = EDecode \/ e = EUnicode \/ e = EValue \/ e = EBadVersion).
Proof.
  set (f := mkFile data 0 strict fwd). unfold decode_file. intros H.
  pose proof (Good_file_headers false f 0 ltac:(lia)) as G.
  destruct (decode_file_headers false f 0) as [[s0 p]|e] eqn:E; [|discriminate].
  assert (s0 = s /\ grains_loop (fuel_of f) k s0 false f p = (l, s', o)) as [<- HL] by (split; congruence).
  destruct o as [|e]; [left; reflexivity|right]. exists e. split; [reflexivity|].
  assert (head_err e \/ e = EBadVersion) as HE; [|unfold head_err in HE; tauto].
  eapply (grains_loop_errs k f (fuel_of f) s0 false p); [lia|unfold fuel_of; lia|unfold fuel_of, zlen; lia|].
  rewrite HL. reflexivity.
Qed.

Theorem open_errors k data strict fwd e : bytes_ok data -> decode_file k (mkFile data 0 strict fwd) = Err e ->
  e = EEof \/ e = EBadType \/ e = EBadVersion \/ e = EDecode \/ e = EUnicode \/ e = EValue.
Proof.
  intros HO H. pose proof (decode_file_cases k data strict fwd HO) as HC. cbv zeta in HC. rewrite H in HC.
  unfold head_err in HC.
  destruct HC as [(A & B)|[(A & B & C)|[(A & B & C & D)|[(A & B & C)|[(A & B & C & D)|(A & B & C & D)]]]]];
    intuition congruence.
Qed.
