(** Grains for the examples in PropsCompare.v. *)
From Coq Require Import String.
From Verif Require Import Base PyValue Json CogEnums GrainObj Compare.
From Verif Require Event.
Local Open Scope list_scope.

Definition ex_kw (flow origin : Z) : kw := mkKw (Some 1) (Some flow) (Some origin) None None (25, 1) (1, 25).
Definition get {A} (d : A) (r : res A) : A := match r with Ok x => x | Err _ => d end.
Definition blank : gobj := mkO KGrain [] None None.
(** Interleaved 16-bit, 24-bit and float audio; planar video; an event. *)
Definition ex_audio (fmt flow origin now : Z) (x : bytes) : gobj := get blank (kw_audio now (ex_kw flow origin) fmt 2 1 48000 (ABytes x)).
Definition ex_s16 := ex_audio 0x2 7 1000.
Definition ex_s24 := ex_audio 0x6 7 1000 5.
Definition ex_float := ex_audio 0x1a 7 1000 5.
Definition ex_event (s : str) : gobj := get blank (kw_event 5 (ex_kw 7 1000) $"urn:x" s ANone).
(** An event with one entry whose one key is given. *)
Definition ex_keyed (key : str) : gobj := fst (Event.apply_op (Event.SetEntries [[(key, PInt 1)]]) (ex_event $"/t")).
Definition ex_nan : bytes := [0; 0; 192; 127].
Definition ex_zero : bytes := [0; 0; 0; 0].
Definition ex_minus_zero : bytes := [0; 0; 0; 128].
Definition no_psnr : gobj -> gobj -> res (option (list Z)) := fun _ _ => Ok None.
Definition verdict (r : res cres) : res bool := rbind r (fun r => Ok (r_equal r)).
Definition verdict2 (r : res (cres * Z)) : res (bool * Z) := rbind r (fun '(r, n) => Ok (r_equal r, n)).
(** The dictionary of such a grain has no key twice. *)
Lemma keys_differ (l : list str) : (if forallb (fun k => (count_occ (list_eq_dec Z.eq_dec) l k =? 1)%nat) l then true else false) = true -> NoDup l.
Proof.
  intros H. apply (NoDup_count_occ' (list_eq_dec Z.eq_dec)). intros x Hx. destruct (forallb _ l) eqn:E; [|discriminate H].
  rewrite forallb_forall in E. apply Nat.eqb_eq, E, Hx.
Qed.
Lemma ex_float_meta x : pv_ok (PDict (o_meta (ex_float x))).
Proof.
  change (o_meta (ex_float x)) with (o_meta (ex_float [])). match goal with |- pv_ok ?v => let w := eval vm_compute in v in change (pv_ok w) end.
  repeat (first [apply ok_dict; [apply keys_differ; vm_compute; reflexivity|] | apply Forall_cons; [cbn [snd]|] | constructor]).
Qed.
Lemma ex_keyed_meta k : pv_ok (PDict (o_meta (ex_keyed k))).
Proof.
  match goal with |- pv_ok ?v => let w := eval vm_compute in v in change (pv_ok w) end.
  repeat (first [apply ok_dict; [first [apply keys_differ; vm_compute; reflexivity | cbn [map fst]; repeat constructor; intros []]|] | apply Forall_cons; [cbn [snd]|] | constructor]).
Qed.
Lemma small_bytes (l : bytes) : forallb (fun b => (0 <=? b) && (b <? 256)) l = true -> bytes_ok l.
Proof.
  rewrite forallb_forall. intros H. apply Forall_forall. intros b Hb. specialize (H b Hb). apply andb_true_iff in H as [A B].
  split; [apply Z.leb_le, A|apply Z.ltb_lt, B].
Qed.
