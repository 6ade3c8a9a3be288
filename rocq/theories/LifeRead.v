From Coq Require Import Lia ZifyBool ZifyNat.
From Verif Require Import Base BaseProofs GsfPrim GsfPrimProofs GsfBlock GsfDecode.
Local Open Scope list_scope.

(** ** What a reader gives, whatever the bytes of the file. *)
Definition gives {A} (P : A -> Prop) (m : rd A) : Prop := forall f p a q, bytes_ok (f_data f) -> m f p = Ok (a, q) -> P a.
Lemma gives_ret {A} (P : A -> Prop) a : P a -> gives P (ret a).
Proof. intros H f p b q _ E. unfold ret in E. assert (a = b) by congruence. subst. exact H. Qed.
Lemma gives_fail {A} (P : A -> Prop) e : gives P (fail e). Proof. intros f p a q _ E. discriminate E. Qed.
Lemma gives_bind {A B} (P : A -> Prop) (Q : B -> Prop) m k : gives P m -> (forall a, P a -> gives Q (k a)) -> gives Q (bind m k).
Proof. intros M K f p b q F E. unfold bind in E. destruct (m f p) as [[a r]|] eqn:X; [|discriminate E]. exact (K a (M f p a r F X) f r b q F E). Qed.
Lemma gives_any {A} (m : rd A) : gives (fun _ => True) m. Proof. intros f p a q _ _. exact I. Qed.
Lemma gives_skip {A B} (Q : B -> Prop) (m : rd A) k : (forall a, gives Q (k a)) -> gives Q (bind m k).
Proof. intros K. apply (gives_bind (fun _ => True)); [apply gives_any|]. intros a _. apply K. Qed.
Lemma gives_read n : gives bytes_ok (fread n).
Proof.
  intros f p a q F E. unfold fread in E. destruct (_ && _); [discriminate E|]. assert (X : zfirst n (zskip p (f_data f)) = a) by congruence. subst a. apply bytes_ok_zfirst, bytes_ok_zskip, F.
Qed.
Lemma gives_uint n : gives (fun z => 0 <= z) (read_uint n).
Proof. apply (gives_bind bytes_ok); [apply gives_read|]. intros d D. destruct (_ =? _); [|apply gives_fail]. apply gives_ret. pose proof (le_dec_bound d D). lia. Qed.
Lemma gives_rational : gives rat_ok read_rational.
Proof.
  apply (gives_bind (fun z => 0 <= z)); [apply gives_uint|]. intros n N. apply (gives_bind (fun z => 0 <= z)); [apply gives_uint|]. intros d D.
  destruct ((n =? 0) || (d =? 0)) eqn:E; apply gives_ret; [split; cbn; [lia|reflexivity]|]. apply mk_rat_ok. lia.
Qed.
Lemma gives_block {A} (P : A -> Prop) w r body : (forall b, gives P (body b)) -> gives P (with_block w r body).
Proof. intros B. apply gives_skip. intros b. apply (gives_bind P); [apply B|]. intros a H. apply gives_skip. intros _. apply gives_ret, H. Qed.
Lemma gives_children {S} (P : S -> Prop) b step s : P s -> (forall c s, P s -> gives P (step c s)) -> gives P (children b step s).
Proof.
  intros H F f p a q D E. unfold children in E. revert E. generalize (fuel_of f). intros fuel. revert s H p a q. induction fuel as [|n IH]; intros s H p a q E; [discriminate E|]. cbn [children_loop] in E. unfold bind at 1 in E.
  destruct (has_child b f p) as [[[|] r]|]; [|unfold ret in E; assert (s = a) by congruence; subst; exact H|discriminate E]. unfold bind at 1 in E.
  destruct (with_block None false (fun c => step c s) f r) as [[s' r']|] eqn:X; [|discriminate E]. apply (IH s' (gives_block P _ _ _ (fun c => F c s H) f r s' r' D X) r' a q E).
Qed.
Lemma gives_remaining {A} (P : A -> Prop) b inner : (forall b, gives P (inner b)) -> gives P (on_remaining b inner).
Proof.
  intros F. unfold on_remaining. apply (gives_bind (fun ds => bytes_ok (fst ds))).
  - apply gives_skip. intros start. apply gives_skip. intros r. destruct (r >? 0); [|apply gives_ret; constructor]. apply (gives_bind bytes_ok); [apply gives_read|]. intros d D. apply gives_ret, D.
  - intros [d start] D. cbn [fst] in D. intros f p a q _ E. destruct (inner b (mkFile d start false false) 0) as [[x y]|] eqn:X; [|discriminate E].
    assert (x = a) by (unfold ret in E; congruence). subst. exact (F b (mkFile d start false false) 0 a y D X).
Qed.

Definition rates_ok (m : gmeta) : Prop := rat_ok (m_rate m) /\ rat_ok (m_dur m).
Definition item_ok (i : item) : Prop := rates_ok (i_meta i) /\ forall b, i_data i = PBytes b -> bytes_ok b.
Lemma gives_gbhd major b : gives rates_ok (decode_gbhd major b).
Proof.
  apply (gives_bind rates_ok).
  - unfold decode_gbhd_fixed. do 3 (apply gives_skip; intros). apply (gives_bind rat_ok); [apply gives_rational|]. intros r R. apply (gives_bind rat_ok); [apply gives_rational|]. intros d D. apply gives_ret. split; assumption.
  - intros m M. apply gives_children; [exact M|]. intros c m' M'. unfold gbhd_child.
    repeat match goal with |- gives _ (if ?t then _ else _) => destruct t end; try (apply gives_skip; intros); apply gives_ret; exact M'.
Qed.
Lemma gives_grdt k b : gives (fun x => forall d, x = PBytes d -> bytes_ok d) (decode_grdt k b).
Proof.
  apply gives_skip. intros r. destruct (r >? 0); [|apply gives_ret; discriminate]. destruct (_ && _).
  - intros f p a q _ E d ->. destruct (k_lazy k); discriminate E.
  - destruct (k_mode k); try (apply (gives_bind bytes_ok); [apply gives_read|]; intros d D; apply gives_ret; intros d' E; assert (d = d') by congruence; subst; exact D).
    apply gives_skip. intros _. apply gives_ret. discriminate.
Qed.
Lemma gives_turn k major : gives (fun t => forall i, t = TYield i -> item_ok i) (grain_turn k major).
Proof.
  apply gives_block. intros b. unfold grain_body. destruct (negb _); [destruct (tag_is T_SSBB b); [destruct (k_concat k)|]; apply gives_ret; discriminate|].
  destruct (b_size b =? 0); [destruct (k_concat k); apply gives_ret; discriminate|]. apply gives_skip. intros l. destruct (negb _); [apply gives_ret; discriminate|].
  apply (gives_bind rates_ok); [apply gives_block; intros g; apply gives_remaining; intros g'; apply gives_gbhd|]. intros m M. apply gives_skip. intros h. destruct h.
  - eapply gives_bind; [apply gives_block; intros g; apply gives_grdt|]. intros d D. apply gives_ret. intros i E. assert (mkItem m d l = i) by congruence. subst i. split; [exact M|exact D].
  - apply gives_ret. intros i E. assert (mkItem m PNone l = i) by congruence. subst i. split; [exact M|discriminate].
Qed.
Lemma loop_items k f : bytes_ok (f_data f) -> forall fuel s c p, Forall item_ok (fst (fst (grains_loop fuel k s c f p))).
Proof.
  intros F. induction fuel as [|n IH]; intros s c p; cbn [grains_loop]; [constructor|].
  destruct (if c then _ else _) as [[s' p']|e]; [|destruct e; constructor]. destruct (grain_turn k (s_major s') f p') as [[[h| |i] q]|e] eqn:T; [apply IH|constructor| |destruct e; constructor].
  specialize (IH s' false q). destruct (grains_loop n k s' false f q) as [[l s''] o]. cbn [fst] in *. constructor; [|exact IH]. exact (gives_turn k _ f p' _ q F T i eq_refl).
Qed.
Theorem decoded_items k f s l s' out : bytes_ok (f_data f) -> decode_file k f = Ok (s, (l, s', out)) -> Forall item_ok l.
Proof.
  intros F E. unfold decode_file in E. destruct (decode_file_headers false f 0) as [[x p]|]; [|discriminate E]. pose proof (loop_items k f F (fuel_of f) x false p) as H.
  assert (X : grains_loop (fuel_of f) k x false f p = (l, s', out)) by congruence. rewrite X in H. exact H.
Qed.
