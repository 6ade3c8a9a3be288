(** Lives of grains for the examples in PropsLife.v. *)
From Coq Require Import String Lia ZifyBool.
From Verif Require Import Base BaseProofs GsfPrim GsfDecode CogEnums GsfEncode GsfFileSpec PyValue PyValueProofs PyList GrainObj Event EventExample Lists GrainSet GrainSetSpec GrainCopy GrainGsf GrainGsfExample Compare CompareSpec CompareExample SavedExample GrainSetExample LifeSpec.
Local Open Scope list_scope.

(** Read from a file (the coded frame); loses its key frame flag; gets a label, whose rate is then changed; one offset is taken away; the change of a missing one fails; it is copied. *)
Definition lf_read : gobj := match nth_error (ob_back false) 1 with Some (Ok o) => o | _ => ex_still end.
Definition lf_plain : gobj := ex_object (set_attr $"is_key_frame" PNone lf_read).
Definition lf_named : gobj := fst (add_timelabel (PStr $"x") (PInt 7) (PInt 25) PNone lf_plain).
Definition lf_rated : gobj := fst (edit_label (-1) (put_rate (PFrac 50 1)) lf_named).
Definition lf_cut : gobj := fst (do_op Offsets (LDel 0) lf_rated).
Definition lf_failed : gobj := fst (do_op Offsets (LSet 9 PNone) lf_cut).
Definition lf_copy : gobj := ex_object (copy_obj 80 lf_failed).
Lemma lf_done r : match r with Ok _ => true | Err _ => false end = true -> r = Ok (ex_object r).
Proof. destruct r; [reflexivity|discriminate]. Qed.
Lemma lf_read_lives : lives lf_read.
Proof.
  destruct (decode_file (mkCfg None LoadDefer true true true false) (mkFile ob_file 0 false false)) as [[s [[l s'] out]]|] eqn:D; [|intros; exfalso; revert D; vm_compute; discriminate].
  assert (L : ob_items false = l) by (unfold ob_items; rewrite D; reflexivity).
  destruct (nth_error (ob_items false) 1) as [i|] eqn:N; [|exfalso; revert N; vm_compute; discriminate].
  apply (lv_read 77 (mkCfg None LoadDefer true true true false) (mkFile ob_file 0 false false) s l s' out i lf_read).
  - apply small_bytes. vm_compute. reflexivity.
  - exact D.
  - rewrite <- L. exact (nth_error_In _ _ N).
  - assert (E : nth_error (ob_back false) 1 = Some (item_object 77 ob_file i)) by (unfold ob_back; apply map_nth_error, N). unfold lf_read. rewrite E.
    assert (K : match nth_error (ob_back false) 1 with Some (Ok _) => true | _ => false end = true) by (vm_compute; reflexivity). rewrite E in K. cbn [f_data].
    destruct (item_object 77 ob_file i); [reflexivity|discriminate K].
Qed.
Lemma lf_copy_lives : lives lf_copy.
Proof.
  apply (lv_copy lf_failed 80); [|apply lf_done; vm_compute; reflexivity]. apply lv_list; [|constructor]. apply lv_list; [|exact I]. apply lv_edit_label.
  - apply lv_add_label; [|constructor]. apply (lv_attr lf_read $"is_key_frame" PNone); [apply lf_read_lives|constructor|apply lf_done; vm_compute; reflexivity].
  - exists (PFrac 50 1). split; [constructor; [lia|reflexivity]|]. auto.
Qed.
(** An event that is given a text that is not an event: what was read is kept. *)
Definition lf_event : gobj := fst (apply_op (SetData [123; 34]) ob_event).
Definition lf_typed : gobj := ex_object (set_attr $"grain_type" (PStr $"audio") ex_coded).
Lemma lf_coded_lives : lives ex_coded.
Proof.
  apply lv_made.
  - apply (made_coded_video 5 ex_kw H264 16 8 None None (Some true) (Some 3) None 0 (Some [0; 4]) (ABytes [1; 2; 3])). apply lf_done. vm_compute. reflexivity.
  - intros x E. vm_compute in E. assert (X : x = [1; 2; 3]) by congruence. subst x. apply small_bytes. reflexivity.
Qed.
Lemma lf_typed_lives : lives lf_typed.
Proof. apply (lv_attr ex_coded $"grain_type" (PStr $"audio")); [apply lf_coded_lives|constructor|apply lf_done; vm_compute; reflexivity]. Qed.
(** A file that ends within the payload of an event, three bytes into it. *)
Definition lf_damaged : bytes := zfirst 592 ob_file.
