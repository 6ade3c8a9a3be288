(** Grains for the examples in PropsSaved.v. *)
From Coq Require Import String Lia ZifyBool.
From Verif Require Import Base BaseProofs GsfPrim GsfDecode CogEnums GsfEncode GsfSpec GsfFileSpec GsfEncState GsfExamples PyValue PyList Json GrainObj Event EventSpec Lists EventExample ListsExample GrainGsf GrainGsfSpec GrainGsfFileSpec GrainGsfExample
  Compare CompareSpec CompareLaws CompareExample GrainCopySpec SavedSpec.
Local Open Scope list_scope.

(** A coded video grain with a label whose rate is in lowest terms. *)
Definition sv_label : pv :=
  PDict [($"tag", PStr $"tc"); ($"timelabel", PDict [($"frames_since_midnight", PInt 90); ($"frame_rate_numerator", PInt 25); ($"frame_rate_denominator", PInt 1); ($"drop_frame", PBool false)])].
Definition sv_coded : gobj :=
  fst (do_ops Labels [LAppend sv_label] (ex_or (kw_coded_video 5 EventExample.ex_kw 0x0202 16 16 None None (Some true) (Some 3) None 0 (Some [0; 2]) (ABytes [7; 8; 9])))).
(** The same without saying whether it is a key frame. *)
Definition sv_unknown : gobj := ex_or (kw_coded_video 5 EventExample.ex_kw 0x0202 16 16 None None None (Some 3) None 0 (Some [0; 2]) (ABytes [7; 8; 9])).
(** Before the epoch. *)
Definition sv_early : gobj := get blank (kw_audio 5 (CompareExample.ex_kw 7 (-1)) 0x2 2 1 48000 (ABytes [1; 2; 3; 4])).
(** Write grains in some version and read them. *)
Definition sv_back (major : Z) (os : list gobj) : list gobj :=
  match map_res read_grain os with
  | Ok gs =>
      match GsfEncState.dumps gs (ex_uuid 5) [] major 0 (ex_uuid 9) ex_created false with
      | Ok b => match decode_file (mkCfg None LoadDefer true true true false) (mkFile b 0 false false) with
                | Ok (_, (l, _, _)) => match map_res (item_object 77 b) l with Ok os => os | Err _ => [] end
                | Err _ => [] end
      | Err _ => [] end
  | Err _ => []
  end.
Definition sv_compare (major : Z) (opts : list copt) (os : list gobj) : res (bool * Z) := verdict2 (compare_grains_pairwise no_psnr false opts os (sv_back major os)).

(** A comparison of the coded grain and its copy in a file of version 8 cannot fail. *)
Lemma sv_compares o : (exists r, compare_grain no_psnr [] o o = Ok r) -> can_compare no_psnr [] o o.
Proof. apply grain_total. Qed.
Lemma compares o : match compare_grain no_psnr [] o o with Ok _ => true | Err _ => false end = true -> exists r, compare_grain no_psnr [] o o = Ok r.
Proof. destruct (compare_grain no_psnr [] o o) as [r|]; [exists r; reflexivity|discriminate]. Qed.
Ltac dict_good := match goal with |- pv_ok ?v => let w := eval vm_compute in v in change (pv_ok w) end;
  repeat (first [apply ok_dict; [apply keys_differ; vm_compute; reflexivity|] | apply ok_frac; [lia|reflexivity] | apply Forall_cons; [cbn [snd]|] | constructor]).
Lemma sv_coded_ok : comparable no_psnr [] 8 sv_coded.
Proof.
  assert (CC : o_class sv_coded = KCodedVideo) by (vm_compute; reflexivity).
  split.
  { split.
    - intros X. lia.
    - intros l E. assert (E2 : labels sv_coded = Ok [match sv_label with PDict d => d | _ => [] end]) by (vm_compute; reflexivity).
      rewrite E2 in E. apply JsonProofs.Ok_eq in E. subst l. constructor; [|constructor]. exists $"tc", 90, 25, 1, false. split; [|reflexivity].
      right. split; [lia|]. split; [lia|]. split; [reflexivity|lia].
    - intros n v I _ E. rewrite CC in I. cbn [number_names In] in I.
      repeat destruct I as [I|I]; try (destruct I; fail); subst n; vm_compute in E; apply JsonProofs.Ok_eq in E; subst v; eexists; reflexivity.
    - intros _ _ E. vm_compute in E. discriminate E.
    - intros _ v E. vm_compute in E. apply JsonProofs.Ok_eq in E. subst v. right. exists 3. split; [reflexivity|lia].
    - rewrite CC. intros E. vm_compute in E. discriminate E.
    - intros K. rewrite CC in K. discriminate K. }
  split; [vm_compute; reflexivity|]. split; [unfold meta_ok; dict_good|].
  split; [intros x E; vm_compute in E; assert (X : x = [7; 8; 9]) by congruence; subst x; apply small_bytes; reflexivity|].
  split; [intros f x E; vm_compute in E; discriminate E|]. apply sv_compares, compares. vm_compute. reflexivity.
Qed.
Lemma some_dict (a b : dict) : Some (PDict a) = Some (PDict b) -> b = a. Proof. congruence. Qed.
Lemma some_list a b : Some (PList a) = Some (PList b) -> b = a. Proof. congruence. Qed.
Lemma dict_eq (a b : dict) : PDict a = PDict b -> b = a. Proof. congruence. Qed.
Lemma missing k (d : dict) : zlist_eqb k $"path" = false -> zlist_eqb k $"pre" = false -> zlist_eqb k $"post" = false ->
  forallb (fun kv => known (fst kv)) d = true -> dget k d = None.
Proof.
  intros N1 N2 N3. induction d as [|[n v] d IH]; cbn [forallb dget fst]; [reflexivity|]. intros H. apply andb_true_iff in H as [H1 H2].
  destruct (zlist_eqb k n) eqn:E; [|auto]. apply zlist_eqb_eq in E. subst n. unfold known in H1. rewrite N1, N2, N3 in H1. discriminate H1.
Qed.
Lemma sv_event_ok : comparable no_psnr [] 8 ob_event.
Proof.
  assert (CC : o_class ob_event = KEvent) by (vm_compute; reflexivity).
  split.
  { split.
    - intros X. lia.
    - intros l E. assert (E2 : labels ob_event = Ok []) by (vm_compute; reflexivity). rewrite E2 in E. apply JsonProofs.Ok_eq in E. subst l. constructor.
    - intros n v I. rewrite CC in I. destruct I.
    - intros K. rewrite CC in K. discriminate K.
    - intros K. rewrite CC in K. discriminate K.
    - rewrite CC. exact I.
    - intros _ p (m & d & l & A & B & _ & _ & L & F). vm_compute in A. apply some_dict in A. subst m. vm_compute in B. apply some_dict in B. subst d.
      vm_compute in L. apply some_list in L. subst l.
      inversion F as [|? ? ? ? (d1 & D1 & _ & K1) F' Q1 Q2]; subst. inversion F' as [|? ? ? ? (d2 & D2 & _ & K2) F'' Q3 Q4]; subst. inversion F''; subst.
      apply dict_eq in D1. apply dict_eq in D2. subst d1 d2.
      constructor; [|constructor; [|constructor]]; intros k N; rewrite <- ?K1, <- ?K2; unfold known in N; apply orb_false_iff in N as [N N3]; apply orb_false_iff in N as [N1 N2].
      + apply missing; [exact N1|exact N2|exact N3|reflexivity].
      + apply missing; [exact N1|exact N2|exact N3|reflexivity]. }
  split; [vm_compute; reflexivity|]. split; [unfold meta_ok; dict_good|].
  split; [intros x E; vm_compute in E; discriminate E|].
  split; [intros f x E; vm_compute in E; discriminate E|]. apply sv_compares, compares. vm_compute. reflexivity.
Qed.
