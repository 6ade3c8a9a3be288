(** C68: what a failed comparison of payloads says about them. *)
From Coq Require Import String Lia.
From Verif Require Import Base PyValue GrainObj Difflib Opcodes OpcodesSpec OpcodesProofs OpcodesMain StrFormat Compare CompareSpec NoteMain.
Local Open Scope list_scope.

(** The operations that are listed take both sequences piece by piece, alternate, and turn one into the other. *)
Theorem C68_script A (eqb : A -> A -> bool) a b : script eqb 0 0 a b (opcodes eqb a b) /\ alternate (opcodes eqb a b).
Proof. exact (conj (opcodes_script eqb a b) (opcodes_alternate eqb a b)). Qed.
Print Assumptions C68_script.
Example C68_script_ex : opcodes Z.eqb [113; 97; 98; 120; 99; 100] [97; 98; 121; 99; 100; 102] =
  [Op Delete 0 1 0 0; Op Equal 1 3 0 2; Op Replace 3 4 2 3; Op Equal 4 6 3 5; Op Insert 6 6 5 6].
Proof. vm_compute. reflexivity. Qed.
(** From 200 values on, those that occur often are not looked for: the operations are still right, but they need not be few. *)
Example C68_popular_ex :
  (let many n := repeat 7 (Z.to_nat n) in let others := map Z.of_nat (seq 10 196) in
   opcodes Z.eqb (1 :: many 149) (2 :: many 149) = [Op Replace 0 1 0 1; Op Equal 1 150 1 150] /\
   opcodes Z.eqb (1 :: many 199) (2 :: many 199) = [Op Replace 0 200 0 200] /\
   opcodes Z.eqb [1; 7; 7; 7] (2 :: many 3 ++ others) = [Op Replace 0 1 0 1; Op Equal 1 4 1 4; Op Insert 4 4 4 200] /\
   opcodes Z.eqb [1; 7; 7; 7; 7] (2 :: many 4 ++ others) = [Op Replace 0 5 0 201]).
Proof. vm_compute. repeat split. Qed.
Theorem C68_rebuilt A (eqb : A -> A -> bool) a b : (forall x y, eqb x y = true -> x = y) -> rebuilt a b (opcodes eqb a b) = b.
Proof. exact (opcodes_rebuilt eqb a b). Qed.
Print Assumptions C68_rebuilt.
Example C68_rebuilt_ex : map (piece [1; 2; 3; 4] [1; 3; 4; 5; 6]) (opcodes Z.eqb [1; 2; 3; 4] [1; 3; 4; 5; 6]) = [[1]; []; [3; 4]; [5; 6]].
Proof. vm_compute. reflexivity. Qed.
Theorem C68_unchanged A (eqb : A -> A -> bool) a b : ratio_one eqb a b = true <-> forall o, In o (opcodes eqb a b) -> is_equal o = true.
Proof. exact (all_equal eqb a b). Qed.
Print Assumptions C68_unchanged.
Example C68_unchanged_ex : opcodes Z.eqb [7; 8; 7] [7; 8; 7] = [Op Equal 0 3 0 3] /\ opcodes Z.eqb [] [] = [].
Proof. vm_compute. split; reflexivity. Qed.

(** Whatever the payloads are, there are words for the outcome, and they are right. *)
Theorem C68_noted c id opts attr x y r : data_equality c id opts attr x y = Ok r ->
  exists a b n, unpack_opt c x = Ok a /\ unpack_opt c y = Ok b /\ data_compare word_eq (excluded_by opts id) a b = Ok (r_equal r, n).
Proof. exact (noted c id opts attr x y r). Qed.
Print Assumptions C68_noted.
Example C68_noted_ex : rbind (unpack (code_for_audio 0x2) [1; 0; 2; 0]) (fun a => rbind (unpack (code_for_audio 0x2) [1; 0; 2; 0; 255; 255]) (fun b => data_compare word_eq false (Some a) (Some b))) =
  Ok (false, Extra false 1 2 (WInt (-1))).
Proof. vm_compute. reflexivity. Qed.
Theorem C68_said a b : exists verdict n, data_compare word_eq false (Some a) (Some b) = Ok (verdict, n) /\ said word_eq a b verdict n.
Proof. exact (noted_said a b). Qed.
Print Assumptions C68_said.
Example C68_said_ex : data_compare Z.eqb false (Some [5; 6; 7]) (Some [5; 9; 7]) = Ok (false, Differ 1 6 9) /\ data_compare Z.eqb false (Some []) (Some [4]) = Ok (false, Extra false 1 0 4) /\
  data_compare Z.eqb true (Some [5]) (Some [5]) = Ok (false, Unchecked) /\ data_compare Z.eqb true None (Some [5; 6]) = Ok (false, Unset true 2).
Proof. vm_compute. repeat split. Qed.
Theorem C68_extra a b : goes_on word_eq a b ->
  (exists x, data_compare word_eq false (Some a) (Some b) = Ok (false, Extra true (zlen a - zlen b) (List.length b) x)) /\
  (exists x, data_compare word_eq false (Some b) (Some a) = Ok (false, Extra false (zlen a - zlen b) (List.length b) x)).
Proof. exact (noted_extra a b). Qed.
Print Assumptions C68_extra.
Example C68_extra_ex : data_compare Z.eqb false (Some [1; 1; 1; 2]) (Some [1; 1]) = Ok (false, Extra true 2 2 1).
Proof. vm_compute. reflexivity. Qed.
(** Except that the "first different values" may be the same value. *)
Theorem C68_first_refuted : exists a b i x, data_compare word_eq false (Some a) (Some b) = Ok (false, Differ i x x) /\ word_eq x x = true.
Proof. exists [WInt 1; WInt 2; WInt 9], [WInt 1; WInt 1; WInt 2], 0%nat, (WInt 1). split; vm_compute; reflexivity. Qed.
Print Assumptions C68_first_refuted.

(** The lines below it: there is one if the payloads differ; the operations and the values of the first payload are right. *)
Theorem C68_lines A (eqb : A -> A -> bool) a b : exists r, lines eqb a b = Ok r /\ (r = None <-> ratio_one eqb a b = true) /\
  forall l more, r = Some (l, more) -> l <> [] /\ map (fun x => fst (fst x)) l = firstn 4 (opcodes eqb a b) /\ (more = true <-> (4 < List.length (opcodes eqb a b))%nat) /\
    forall o x y, In (o, x, y) l -> x = cut a (op_i1 o) (op_i2 o).
Proof. exact (lines_ok eqb a b). Qed.
Print Assumptions C68_lines.
Example C68_lines_ex : lines Z.eqb [1; 2; 3] [1; 5; 3; 4] =
  Ok (Some ([(Op Equal 0 1 0 1, [1], [1]); (Op Replace 1 2 1 2, [2], [5]); (Op Equal 2 3 2 3, [3], [3]); (Op Insert 3 3 3 4, [], [])], false)).
Proof. vm_compute. reflexivity. Qed.
(** Those of the second payload are not: "equal" values are shown that differ. *)
Theorem C68_values_refuted : exists a b l more o x y, lines Z.eqb a b = Ok (Some (l, more)) /\ In (o, x, y) l /\ is_equal o = true /\ x <> y.
Proof.
  exists [1; 2; 9], [1; 1; 2]. eexists. exists false, (Op Equal 0 2 1 3), [1; 2], [1; 1]. split; [vm_compute; reflexivity|]. split; [right; left; reflexivity|]. split; [reflexivity|discriminate].
Qed.
Print Assumptions C68_values_refuted.
