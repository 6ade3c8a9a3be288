(** Proofs about pipes and the wrapper for frames of a fixed size. *)
From Coq Require Import Lia ZifyBool ZifyNat.
From Verif Require Import Base BaseProofs PatternTime PatternSpec PatternTimeProofs Wrap WrapSpec.
Ltac Zify.zify_post_hook ::= Z.div_mod_to_equations.

(** ** Reading fragments *)
Lemma frag_pos f s : fragments_ok (f :: s) -> 0 < zlen f.
Proof. intros H. inversion H; subst. destruct f; [contradiction|]. rewrite zlen_cons. pose proof (zlen_nonneg f). lia. Qed.

Lemma src_read_spec n s : 0 <= n -> fragments_ok s ->
  exists s' b, src_read n s = (s', Ok b) /\ concat s = b ++ concat s' /\ fragments_ok s' /\ zlen b <= n /\
    (zlen b = 0 -> n = 0 \/ s = []) /\ (length s' < length s \/ (length s' = length s /\ zlen b = n) \/ s = [])%nat.
Proof.
  intros Hn Hs. unfold src_read. rewrite (proj2 (Z.eqb_neq n (-1))), (proj2 (Z.ltb_ge n 0)) by lia.
  destruct s as [|f rest].
  - exists [], []. cbn [concat app]. rewrite zlen_nil. repeat split; auto.
  - pose proof (frag_pos _ _ Hs) as Hf. destruct (zlen f <=? n) eqn:E.
    + exists rest, f. rewrite zfirst_all by lia. inversion Hs; subst. (repeat split); auto; try lia; left; cbn [length]; lia.
    + exists (zskip n f :: rest), (zfirst n f). inversion Hs; subst.
      assert (Hb : zlen (zfirst n f) = n) by (rewrite zlen_zfirst; lia).
      split; [reflexivity|]. split; [cbn [concat]; rewrite app_assoc, zfirst_zskip; reflexivity|].
      split; [constructor; [|assumption]; intros Z0; pose proof (zlen_zskip n f Hn) as Q; rewrite Z0, zlen_nil in Q; lia|].
      split; [lia|]. split; [lia|]. right. left. split; [reflexivity|lia].
Qed.

(** ** The loop of a read *)
Lemma fill_spec : forall fuel size s out src, fragments_ok src -> zlen out + s = size -> 0 <= s -> (length src < fuel)%nat ->
  (s <= zlen (concat src) ->
    exists src', fill fuel size s out src = (src', Ok (out ++ zfirst s (concat src))) /\ concat src' = zskip s (concat src) /\
      fragments_ok src' /\ (length src' <= length src)%nat) /\
  (zlen (concat src) < s -> fill fuel size s out src = ([], Err EEof)).
Proof.
  induction fuel as [|fuel IH]; intros size s out src Hf Hs Hn Hl; [lia|]. cbn [fill].
  destruct (zlen out <? size) eqn:E.
  - destruct (src_read_spec s src Hn Hf) as (src' & b & -> & Ec & Hf' & Hb & Hz & Hd).
    pose proof (zlen_nonneg b). rewrite Ec. rewrite zlen_app. pose proof (zlen_nonneg (concat src')).
    destruct (zlen b =? 0) eqn:Eb.
    + assert (src = []) by (destruct Hz; [lia|lia|assumption]). subst src. split; [intros H'; exfalso|intros _].
      * destruct b; [|rewrite zlen_cons in *; pose proof (zlen_nonneg b); lia]. cbn [concat app] in Ec. rewrite <- Ec in H'.
        change (zlen (@nil Z)) with 0 in H'. lia.
      * destruct b; [|rewrite zlen_cons in *; pose proof (zlen_nonneg b); lia]. cbn [concat app] in Ec.
        destruct src' as [|f r]; [reflexivity|]. exfalso. apply frag_pos in Hf'. cbn [concat] in Ec.
        destruct f; [exact (Z.lt_irrefl _ Hf')|discriminate].
    + assert (src <> []) as Hne.
      { intros ->. cbn [concat] in Ec. symmetry in Ec. apply app_eq_nil in Ec as [-> _]. rewrite zlen_nil in Eb. discriminate. }
      destruct (Z.eq_dec (zlen b) s) as [Es|Ns].
      * split; [intros _|intros; lia]. exists src'. replace (s - zlen b) with 0 by lia.
        assert (fill fuel size 0 (out ++ b) src' = (src', Ok (out ++ b))) as ->.
        { destruct fuel; cbn [fill]; rewrite zlen_app, (proj2 (Z.ltb_ge _ _)) by lia; reflexivity. }
        subst s. rewrite zfirst_app, zskip_app. (repeat split); auto.
        destruct Hd as [Hd|[[Hd _]|Hd]]; [lia|lia|contradiction].
      * assert (length src' < length src)%nat by (destruct Hd as [Hd|[[_ Hd]|Hd]]; [exact Hd|lia|contradiction]).
        destruct (IH size (s - zlen b) (out ++ b) src' Hf') as [I1 I2]; [rewrite zlen_app; lia|lia|lia|].
        split.
        -- intros Hc. destruct I1 as (src2 & -> & Ec2 & Hf2 & Hl2); [lia|]. exists src2.
           rewrite zfirst_app_ge, zskip_app_ge, app_assoc by lia. repeat split; auto. lia.
        -- intros Hc. apply I2. lia.
  - assert (s = 0) by lia. subst s. split.
    + intros _. exists src. rewrite zskip_le0 by lia. replace (zfirst 0 (concat src)) with (@nil Z) by (rewrite zfirst_firstn; reflexivity).
      rewrite app_nil_r. repeat split; auto.
    + intros. pose proof (zlen_nonneg (concat src)). lia.
Qed.

Lemma pipe_read_ok n src pos : 0 <= n <= zlen (concat src) -> fragments_ok src ->
  exists src', pipe_read n (mkPipe src pos) = (mkPipe src' (pos + n), Ok (zfirst n (concat src))) /\
    concat src' = zskip n (concat src) /\ fragments_ok src' /\ (length src' <= length src)%nat.
Proof.
  intros Hn Hf. unfold pipe_read. rewrite (proj2 (Z.eqb_neq n (-1))) by lia. cbn [p_src p_pos].
  destruct (fill_spec (S (length src)) n n [] src Hf) as [H _]; [rewrite zlen_nil; lia|lia|lia|].
  destruct H as (src' & -> & Ec & Hf' & Hl); [lia|]. exists src'. cbn [app]. repeat split; auto.
  do 2 f_equal. rewrite zlen_zfirst; lia.
Qed.

Lemma pipe_read_short n src pos : zlen (concat src) < n -> fragments_ok src ->
  pipe_read n (mkPipe src pos) = (mkPipe [] pos, Err EEof).
Proof.
  intros Hn Hf. pose proof (zlen_nonneg (concat src)). unfold pipe_read. rewrite (proj2 (Z.eqb_neq n (-1))) by lia. cbn [p_src p_pos].
  destruct (fill_spec (S (length src)) n n [] src Hf) as [_ H']; [rewrite zlen_nil; lia|lia|lia|]. now rewrite H' by lia.
Qed.

Lemma pipe_read_all src pos : pipe_read (-1) (mkPipe src pos) = (mkPipe [] (pos + zlen (concat src)), Ok (concat src)).
Proof. reflexivity. Qed.

(** ** A pipe gives what a file gives *)
Lemma pipe_like ops : forall content src pos,
  fragments_ok src -> concat src = zskip pos content -> 0 <= pos -> Forall op_ok ops ->
  (Forall (fun o => ~ is_seek o) ops \/ (length src <= 1)%nat) ->
  pipe_run ops (mkPipe src pos) = like_file ops content pos.
Proof.
  induction ops as [|o ops IH]; intros content src pos Hf Ec Hp Ho Hk; [reflexivity|].
  cbn [pipe_run like_file]. apply Forall_cons_iff in Ho as [Ho Ho'].
  assert (Hk' : forall src' : source, (length src' <= length src)%nat -> Forall (fun o => ~ is_seek o) ops \/ (length src' <= 1)%nat).
  { intros src' L. destruct Hk as [Hk|Hk]; [left; now apply Forall_cons_iff in Hk as [_ Hk]|right; lia]. }
  destruct o as [n|n w|].
  - cbn [op_ok] in Ho. cbn [refused pipe_op file_op]. rewrite <- Ec.
    pose proof (zlen_nonneg (concat src)) as Hz.
    destruct (Z.eq_dec n (-1)) as [->|N].
    + rewrite pipe_read_all. rewrite (proj2 (Z.ltb_ge _ _)) by lia. change (-1 <? 0) with true. cbv iota. f_equal.
      apply IH; [apply Forall_nil| |lia|exact Ho'|apply Hk'; cbn [length]; lia].
      cbn [concat]. rewrite zskip_all; [reflexivity|]. rewrite Ec, zlen_zskip; lia.
    + destruct (zlen (concat src) <? n) eqn:E.
      * rewrite pipe_read_short by (auto; lia). reflexivity.
      * destruct (pipe_read_ok n src pos) as (src' & -> & E' & F' & L'); [lia|assumption|].
        rewrite (proj2 (Z.ltb_ge n 0)) by lia. f_equal.
        assert (zlen (zfirst n (concat src)) = n) as -> by (rewrite zlen_zfirst; lia).
        apply IH; auto; [|lia]. rewrite E', Ec. apply zskip_zskip; lia.
  - cbn [op_ok] in Ho. cbn [refused pipe_op]. unfold pipe_seek. cbn [p_pos p_src file_op fst].
    destruct Hk as [Hk|Hk]; [apply Forall_cons_iff in Hk as [Hk _]; cbn [is_seek] in Hk; exfalso; now apply Hk|].
    destruct (w =? 2) eqn:W2; [reflexivity|]. cbn [orb].
    set (off := if w =? 0 then n - pos else n).
    assert ((if w =? 0 then n else if w =? 1 then pos + n else zlen content + n) = pos + off) as ->
      by (unfold off; destruct Ho as [->|[->| ->]]; cbn [Z.eqb Pos.eqb]; [lia|reflexivity|discriminate]).
    destruct (off <? 0) eqn:Eo.
    + rewrite (proj2 (Z.ltb_lt (pos + off) pos)) by lia. reflexivity.
    + rewrite (proj2 (Z.ltb_ge (pos + off) pos)) by lia. f_equal.
      destruct (0 <? off) eqn:E0.
      * destruct (src_read_spec off src) as (s' & b & -> & Ec' & F' & Hb & Hz & Hd); [lia|assumption|]. cbn [fst].
        assert (concat s' = zskip off (concat src)).
        { rewrite Ec'. destruct src as [|f [|? ?]]; [| |cbn [length] in Hk; lia].
          - cbn [concat] in *. symmetry in Ec'. apply app_eq_nil in Ec' as [-> ->]. cbn [app]. symmetry. apply zskip_nil.
          - destruct s' as [|g [|? ?]].
            + cbn [concat]. rewrite zskip_all; [reflexivity|]. rewrite app_nil_r. lia.
            + assert (zlen b = off) as <- by (destruct Hd as [Hd|[[_ Hd]|Hd]]; [cbn [length] in Hd; lia|exact Hd|discriminate]).
              now rewrite zskip_app.
            + destruct Hd as [Hd|[[Hd _]|Hd]]; [cbn [length] in Hd; lia|cbn [length] in Hd; lia|discriminate]. }
        apply IH; auto; [rewrite H, Ec; apply zskip_zskip; lia|lia|].
        apply Hk'. destruct Hd as [Hd|[[Hd _]|Hd]]; [lia|lia|]. subst src. cbn [concat] in Ec'. symmetry in Ec'. apply app_eq_nil in Ec' as [_ E'].
        destruct s' as [|g s']; [cbn [length]; lia|]. apply frag_pos in F'. cbn [concat] in E'. apply app_eq_nil in E' as [-> _].
        exact (False_ind _ (Z.lt_irrefl _ F')).
      * replace off with 0 by lia. rewrite Z.add_0_r. apply IH; auto.
  - cbn [refused pipe_op file_op p_pos]. f_equal. apply IH; auto.
Qed.

Lemma pipe_as_file ops s : fragments_ok s -> Forall op_ok ops ->
  (Forall (fun o => ~ is_seek o) ops \/ (length s <= 1)%nat) ->
  pipe_run ops (mkPipe s 0) = like_file ops (concat s) 0.
Proof. intros. apply pipe_like; auto; [|lia]. now rewrite zskip_le0 by lia. Qed.

(** After an EOFError nothing is left. *)
Lemma fill_eof : forall fuel size s out src src', fragments_ok src -> 0 <= s -> zlen out + s = size -> (length src < fuel)%nat ->
  fill fuel size s out src = (src', Err EEof) -> src' = [].
Proof.
  intros fuel size s out src src' Hf Hs Hz Hl E. destruct (fill_spec fuel size s out src Hf Hz Hs Hl) as [A B].
  destruct (Z_le_gt_dec s (zlen (concat src))) as [L|L].
  - destruct A as (x & A & _); [lia|]. rewrite A in E. discriminate.
  - rewrite B in E by lia. now inversion E.
Qed.

Lemma empty_pipe ops : forall pos, Forall (fun o => match o with OutBytes b => b = [] | _ => True end) (pipe_all ops (mkPipe [] pos)).
Proof.
  induction ops as [|o ops IH]; intros pos; [constructor|]. cbn [pipe_all].
  destruct o as [n|n w|]; cbn [pipe_op].
  - unfold pipe_read. cbn [p_src p_pos length]. destruct (n =? -1) eqn:E.
    + cbn. constructor; [reflexivity|apply IH].
    + cbn [fill]. destruct (zlen [] <? n) eqn:L.
      * assert (src_read n [] = ([], Ok [])) as ->.
        { unfold src_read. rewrite E. rewrite zlen_nil in L. rewrite (proj2 (Z.ltb_ge n 0)) by lia. reflexivity. }
        rewrite zlen_nil. cbn [Z.eqb]. constructor; [exact I|apply IH].
      * constructor; [reflexivity|apply IH].
  - unfold pipe_seek. cbn [p_src p_pos]. destruct (w =? 2); [constructor; [exact I|apply IH]|].
    destruct (_ <? 0) eqn:E; [constructor; [exact I|apply IH]|]. constructor; [exact I|].
    match goal with |- Forall _ (pipe_all ops (mkPipe ?s ?p)) => assert (s = []) as -> end; [|apply IH].
    destruct (0 <? _); [|reflexivity]. unfold src_read. rewrite (proj2 (Z.eqb_neq _ _)), E by lia. reflexivity.
  - constructor; [exact I|apply IH].
Qed.

Lemma after_eof n src pos p : -1 <= n -> fragments_ok src -> pipe_read n (mkPipe src pos) = (p, Err EEof) ->
  p_pos p = pos /\ forall ops, Forall (fun o => match o with OutBytes b => b = [] | _ => True end) (pipe_all ops p).
Proof.
  intros Hn Hf H. destruct (Z.eq_dec n (-1)) as [->|N]; [rewrite pipe_read_all in H; discriminate|].
  destruct (Z_le_gt_dec n (zlen (concat src))) as [L|L].
  - destruct (pipe_read_ok n src pos) as (s' & E & _); [lia|assumption|]. rewrite E in H. discriminate.
  - rewrite pipe_read_short in H by (auto; lia). inversion H; subst. split; [reflexivity|]. intros ops. apply empty_pipe.
Qed.

(** ** Frames of a fixed size *)
Lemma between_cons a b : a < b -> between a b = a :: between (a + 1) b.
Proof.
  intros H. unfold between. replace (Z.to_nat (b - a)) with (S (Z.to_nat (b - (a + 1)))) by lia. cbn [seq map].
  rewrite Z.add_0_r. f_equal. rewrite (seq_from 1), map_map. apply map_ext. intros m. lia.
Qed.

Lemma origins_cons {A} k r c (g : wrapped A) gs : wg_origin g = grid k r c -> origins_from k r (c + 1) gs -> origins_from k r c (g :: gs).
Proof.
  intros E H. unfold origins_from in *. rewrite zlen_cons. pose proof (zlen_nonneg gs). rewrite between_cons by lia. cbn [map].
  rewrite E. f_equal. rewrite H. do 2 f_equal. lia.
Qed.

Lemma origins_nil {A} k r c : origins_from k r c (@nil (wrapped A)).
Proof. unfold origins_from. rewrite zlen_nil, Z.add_0_r. unfold between. now rewrite Z.sub_diag. Qed.

(** Any fragments: everything, in the pieces the reads gave. *)
Lemma grains_source {A} k r size (t : A) : 0 < size -> forall fuel c s, fragments_ok s -> (Z.to_nat (zlen (concat s)) < fuel)%nat ->
  exists gs, grains k r src_read size t c s fuel = (gs, None) /\ concat (map wg_data gs) = concat s /\
    Forall (fun g => wg_template g = t /\ 0 < zlen (wg_data g) <= size) gs /\ origins_from k r c gs.
Proof.
  intros Hs. induction fuel as [|fuel IH]; intros c s Hf Hl; [lia|]. cbn [grains].
  destruct (src_read_spec size s) as (s' & b & -> & Ec & F' & Hb & Hz & Hd); [lia|assumption|].
  destruct (zlen b =? 0) eqn:Eb.
  - exists []. assert (s = []) as -> by (destruct Hz; [lia|lia|assumption]). repeat split; auto. apply origins_nil.
  - pose proof (zlen_nonneg b).
    destruct (IH (c + 1) s' F') as (gs & -> & E1 & E2 & E3); [rewrite Ec, zlen_app in Hl; pose proof (zlen_nonneg (concat s')); lia|].
    eexists. split; [reflexivity|]. cbn [map concat wg_data]. rewrite E1. split; [now symmetry|].
    split; [constructor; [split; [reflexivity|cbn [wg_data]; lia]|exact E2]|].
    apply origins_cons; [reflexivity|exact E3].
Qed.

(** A buffered file: every frame is complete except perhaps the last. *)
Lemma grains_file {A} k r size (t : A) : 0 < size -> forall fuel c d, (Z.to_nat (zlen d) < fuel)%nat ->
  exists gs, grains k r src_read size t c (buffered d) fuel = (gs, None) /\
    concat (map wg_data gs) = d /\ Forall (fun g => wg_template g = t /\ 0 < zlen (wg_data g)) gs /\ origins_from k r c gs /\
    forall i g, nth_error gs i = Some g -> zlen (wg_data g) = Z.min size (zlen d - Z.of_nat i * size).
Proof.
  intros Hs. induction fuel as [|fuel IH]; intros c d Hl; [lia|]. cbn [grains].
  destruct d as [|x d0].
  - exists []. cbn [buffered]. unfold src_read. rewrite (proj2 (Z.eqb_neq size (-1))), (proj2 (Z.ltb_ge size 0)) by lia. rewrite zlen_nil. cbn [Z.eqb].
    repeat split; auto; [apply origins_nil|]. intros [|i] g; discriminate.
  - set (d := x :: d0) in *. assert (Hd : 0 < zlen d) by (unfold d; rewrite zlen_cons; pose proof (zlen_nonneg d0); lia).
    change (buffered d) with [d]. assert (src_read size [d] = (buffered (zskip size d), Ok (zfirst size d))) as ->.
    { unfold src_read, buffered. rewrite (proj2 (Z.eqb_neq size (-1))), (proj2 (Z.ltb_ge size 0)) by lia.
      assert (L : zlen (zskip size d) = Z.max 0 (zlen d - size)) by (apply zlen_zskip; lia). destruct (zlen d <=? size) eqn:E.
      - rewrite zskip_all by lia. reflexivity.
      - destruct (zskip size d); [change (zlen (@nil Z)) with 0 in L; lia|reflexivity]. }
    assert (Hz : zlen (zfirst size d) = Z.min size (zlen d)) by (rewrite zlen_zfirst; lia).
    rewrite (proj2 (Z.eqb_neq _ _)) by lia.
    destruct (IH (c + 1) (zskip size d)) as (gs & -> & E1 & E2 & E3 & E4); [rewrite zlen_zskip by lia; lia|].
    eexists. split; [reflexivity|]. cbn [map concat wg_data]. rewrite E1. split; [apply zfirst_zskip|].
    split; [constructor; [split; [reflexivity|cbn [wg_data]; lia]|exact E2]|]. split; [apply origins_cons; [reflexivity|exact E3]|].
    intros [|i] g H; cbn [nth_error] in H.
    + assert (E5 : g = mkWg t (from_count k c (fst r) (snd r)) (zfirst size d)) by congruence. rewrite E5. cbn [wg_data]. rewrite Hz. change (Z.of_nat 0) with 0. lia.
    + pose proof (E4 i g H) as E. rewrite E, zlen_zskip by lia.
      destruct (Z_le_gt_dec size (zlen d)); [lia|]. exfalso.
      assert (zskip size d = []) as Ez by (apply zskip_all; lia). rewrite Ez in E1.
      destruct gs as [|g' gs]; [destruct i; discriminate|].
      cbn [map concat] in E1. apply app_eq_nil in E1 as [E1 _]. apply Forall_inv in E2 as [_ E2]. rewrite E1 in E2. exact (Z.lt_irrefl _ E2).
Qed.

(** A pipe: whole frames only, whatever the fragments. *)
Lemma grains_pipe {A} k r size (t : A) : 0 < size -> forall fuel c s pos, fragments_ok s -> (Z.to_nat (zlen (concat s)) < fuel)%nat ->
  exists gs, grains k r pipe_read size t c (mkPipe s pos) fuel = (gs, None) /\
    concat (map wg_data gs) = zfirst (zlen (concat s) / size * size) (concat s) /\
    Forall (fun g => wg_template g = t /\ zlen (wg_data g) = size) gs /\ origins_from k r c gs.
Proof.
  intros Hs. induction fuel as [|fuel IH]; intros c s pos Hf Hl; [lia|]. cbn [grains].
  pose proof (zlen_nonneg (concat s)) as Hz.
  destruct (Z_le_gt_dec size (zlen (concat s))) as [L|L].
  - destruct (pipe_read_ok size s pos) as (s' & -> & Ec & F' & _); [lia|assumption|].
    assert (zlen (zfirst size (concat s)) = size) as E by (rewrite zlen_zfirst; lia). rewrite E, (proj2 (Z.eqb_neq _ _)) by lia.
    assert (zlen (concat s') = zlen (concat s) - size) as E' by (rewrite Ec, zlen_zskip; lia).
    destruct (IH (c + 1) s' (pos + size) F') as (gs & -> & E1 & E2 & E3); [lia|].
    eexists. split; [reflexivity|]. cbn [map concat wg_data]. split; [|split].
    + rewrite E1, E'. replace ((zlen (concat s) - size) / size * size) with (zlen (concat s) / size * size - size).
      * assert (size <= zlen (concat s) / size * size).
        { assert (1 <= zlen (concat s) / size) by (apply Z.div_le_lower_bound; lia). nia. }
        set (m := zlen (concat s) / size * size) in *. clearbody m.
        transitivity (zfirst m (zfirst size (concat s) ++ zskip size (concat s))); [|now rewrite zfirst_zskip].
        rewrite zfirst_app_ge, E, Ec by lia. reflexivity.
      * replace (zlen (concat s) - size) with (zlen (concat s) + (-1) * size) by lia. rewrite Z.div_add by lia. lia.
    + constructor; [split; [reflexivity|exact E]|exact E2].
    + apply origins_cons; [reflexivity|exact E3].
  - rewrite pipe_read_short by (auto; lia). exists []. rewrite Z.div_small by lia. split; [reflexivity|]. split; [|split].
    + cbn [map concat Z.mul]. rewrite zfirst_firstn. reflexivity.
    + constructor.
    + apply origins_nil.
Qed.

(** A template without a size makes no grain. *)
Lemma grains_none {A} k r (t : A) fuel c s pos :
  grains k r src_read 0 t c s (S fuel) = ([], None) /\ grains k r pipe_read 0 t c (mkPipe s pos) (S fuel) = ([], None).
Proof.
  split.
  - cbn [grains]. destruct s as [|f s]; [reflexivity|]. unfold src_read. change (0 =? -1) with false. change (0 <? 0) with false. cbv iota.
    destruct f; [reflexivity|]. reflexivity.
  - cbn [grains]. reflexivity.
Qed.
