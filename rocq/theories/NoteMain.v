(** The comparison of payloads always finds words for what it found. *)
From Coq Require Import String Lia ZifyBool ZifyNat.
From Verif Require Import Base BaseProofs PyValue GrainObj Difflib DifflibProofs Opcodes OpcodesSpec OpcodesProofs OpcodesMain StrFormat Compare CompareSpec JsonProofs CompareProofs.
Local Open Scope list_scope.

Theorem noted c id opts attr x y r : data_equality c id opts attr x y = Ok r ->
  exists a b n, unpack_opt c x = Ok a /\ unpack_opt c y = Ok b /\ data_compare word_eq (excluded_by opts id) a b = Ok (r_equal r, n).
Proof.
  unfold data_equality. intros H. apply rbind_ok in H as (a & A & H). apply rbind_ok in H as (b & B & H). apply Ok_eq in H. subst r. exists a, b.
  destruct a as [a|]; destruct b as [b|]; cbn [data_compare r_equal]; try (eexists; repeat split; auto; fail).
  destruct (excluded_by opts id); [eexists; repeat split; auto|].
  destruct (note_said word_eq a b) as (v & n & H & S); [exact word_eq_sym|exact word_eq_trans|]. cbn [data_compare] in H. exists n. split; [exact A|]. split; [exact B|].
  destruct (ratio_one word_eq a b); [rewrite H; f_equal; f_equal; congruence|]. rewrite H. apply rbind_ok in H as (n' & _ & H). apply Ok_eq in H. congruence.
Qed.
Theorem noted_said a b : exists verdict n, data_compare word_eq false (Some a) (Some b) = Ok (verdict, n) /\ said word_eq a b verdict n.
Proof. apply note_said; [exact word_eq_sym|exact word_eq_trans]. Qed.
Theorem noted_extra a b : goes_on word_eq a b ->
  (exists x, data_compare word_eq false (Some a) (Some b) = Ok (false, Extra true (zlen a - zlen b) (List.length b) x)) /\
  (exists x, data_compare word_eq false (Some b) (Some a) = Ok (false, Extra false (zlen a - zlen b) (List.length b) x)).
Proof. intros G. split; [apply note_extra|apply note_extra_b]; auto; first [exact word_eq_sym|exact word_eq_trans]. Qed.
