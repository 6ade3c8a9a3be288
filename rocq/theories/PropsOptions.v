(** C59: the options of comparisons, as they are written. *)
From Coq Require Import String Lia.
From Verif Require Import Base PyValue GrainObj Compare CompareSpec CompareExample Options OptionsSpec OptionsProofs.
Local Open Scope list_scope.

(** Arguments that are written as the documentation says mean what was wanted: what is ignored is ignored, differences are in the
    relations asked for, and 0 where nothing was asked. *)
Theorem C59_wanted : forall psnr ws es a b, Forall2 written ws es -> exists cs, mean cs ws /\ compare_with psnr es a b = compare_grain psnr cs a b.
Proof. exact wanted. Qed.
Print Assumptions C59_wanted.
Theorem C59_verdict : forall psnr ws es a b r, Forall2 written ws es -> stored_ok a -> stored_ok b -> compare_with psnr es a b = Ok r ->
  exists cs, mean cs ws /\ (r_equal r = true <-> grains_agree psnr cs a b).
Proof. exact wanted_verdict. Qed.
Print Assumptions C59_verdict.
Example C59_verdict_ex : let less := XCmp Lt (XAttr (XName NExpected) $"origin_timestamp") (XNum 0) in let more := XCmp Lt (XNum (-50)) (XAttr (XName NExpected) $"origin_timestamp") in
  written (Differ $"origin_timestamp" Lt 0) less /\ written (Differ $"origin_timestamp" Gt (-50)) more /\
  verdict (compare_with no_psnr [less; more; XAttr (XName NExclude) $"sync_timestamp"] (ex_audio 2 7 1000 5 [1; 2; 3; 4]) (ex_audio 2 7 1040 5 [1; 2; 3; 4])) = Ok true /\
  verdict (compare_with no_psnr [less; more; XAttr (XName NExclude) $"sync_timestamp"] (ex_audio 2 7 1000 5 [1; 2; 3; 4]) (ex_audio 2 7 1060 5 [1; 2; 3; 4])) = Ok false /\
  verdict (compare_with no_psnr [less; more] (ex_audio 2 7 1000 5 [1; 2; 3; 4]) (ex_audio 2 7 1040 5 [1; 2; 3; 4])) = Ok false /\
  verdict (compare_with no_psnr [XName NOnlyMetadata] (ex_s16 5 [1; 2; 3; 4]) (ex_s16 5 [1; 2; 3; 5])) = Ok true /\
  verdict (compare_with (fun _ _ => Ok (Some [40; 35])) [XCmp Gt (XAttr (XName NPsnr) $"data") (XNums [Some 38; None])] (ex_s16 5 [1; 2; 3; 4]) (ex_s16 5 [1; 2; 3; 5])) = Ok true /\
  verdict (compare_with (fun _ _ => Ok (Some [40; 35])) [XCmp Lt (XNums [Some 38; None]) (XAttr (XName NPsnr) $"data")] (ex_s16 5 [1; 2; 3; 4]) (ex_s16 5 [1; 2; 3; 5])) = Ok true.
Proof.
  assert (P : plain_name $"origin_timestamp") by (split; [discriminate|intros r; discriminate]).
  split; [exact (w_differ _ Lt 0 P)|]. split; [refine (w_differ_left _ Gt Lt (-50) P _); intros x y; cbn [relation]; lia|]. vm_compute. repeat split.
Qed.

(** The order of the arguments and repetitions do not matter. *)
Theorem C59_order : forall psnr ws es ws' es' a b r, Forall2 written ws es -> Forall2 written ws' es' -> (forall w, In w ws <-> In w ws') -> stored_ok a -> stored_ok b ->
  compare_with psnr es a b = Ok r -> exists r', compare_with psnr es' a b = Ok r' /\ r_equal r' = r_equal r.
Proof. exact any_order. Qed.
Print Assumptions C59_order.
Example C59_order_ex : let e := XAttr (XName NExclude) $"data" in let f := XAttr (XName NInclude) $"creation_timestamp" in let go es := verdict (compare_with no_psnr es (ex_s16 5 [1; 2]) (ex_s16 6 [1; 3])) in
  go [e; f] = Ok false /\ go [f; e; e] = Ok false /\ go [e] = Ok true.
Proof. vm_compute. auto. Qed.

(** Both bounds in one expression, [z < ExpectedDifference.n < w]: the first is lost. *)
Theorem C59_chain_refuted : forall n c d z w, plain_name n -> eval (XChain (XNum z) c (XAttr (XName NExpected) n) d (XNum w)) = eval (XCmp d (XAttr (XName NExpected) n) (XNum w)).
Proof. exact chain_last. Qed.
Print Assumptions C59_chain_refuted.
Example C59_chain_ex : verdict (compare_with no_psnr [XChain (XNum (-50)) Lt (XAttr (XName NExpected) $"origin_timestamp") Lt (XNum 0); XAttr (XName NExclude) $"sync_timestamp"]
    (ex_audio 2 7 1000 5 [1; 2; 3; 4]) (ex_audio 2 7 9000 5 [1; 2; 3; 4])) = Ok true.
Proof. vm_compute. reflexivity. Qed.
(** [and] gives the second option only, [or] the first, [not] none. *)
Theorem C59_and_refuted : forall e f o, eval e = Ok (VOption o) -> eval (XAnd e f) = eval f /\ eval (XOr e f) = Ok (VOption o) /\ eval (XNot e) = Ok (VBool false).
Proof. exact and_last. Qed.
Print Assumptions C59_and_refuted.
(** [&] and [|] of two options raise TypeError. *)
Theorem C59_bits_refuted : forall e f o, eval e = Ok (VOption o) -> (exists v, eval f = Ok v) -> eval (XBitAnd e f) = Err EType /\ eval (XBitOr e f) = Err EType.
Proof. exact bits_fail. Qed.
Print Assumptions C59_bits_refuted.
(** Where they give an option it raises TypeError at every difference. *)
Theorem C59_useless_refuted : forall e f p o v, eval e = Ok (VExpect p) -> eval f = Ok v -> eval (XBitAnd e f) = Ok (VOption o) -> exists m, o = PExpect p m /\ forall d, says m d = Err EType.
Proof. exact bits_useless. Qed.
Print Assumptions C59_useless_refuted.
Example C59_bits_ex : let o := XAttr (XName NExpected) $"origin_timestamp" in
  eval (XBitAnd (XCmp Gt o (XNum 1)) (XCmp Lt o (XNum 5))) = Err EType /\ eval (XBitAnd o (XCmp Lt o (XNum 5))) = Ok (VOption (PExpect (path $"origin_timestamp") MNone)) /\
  eval (XBitOr o (XCmp Lt (XAttr (XName NExpected) $"sync_timestamp") (XNum 5))) = Err EValue /\
  eval (XAnd (XCmp Gt o (XNum 1)) (XCmp Lt o (XNum 5))) = Ok (VOption (PExpect (path $"origin_timestamp") (MCmp Lt 5))).
Proof. vm_compute. auto. Qed.
(** An option behind a condition, [l and e] or [l or e]: it is taken when the condition says so, and otherwise the condition itself is the argument, which is an error. *)
Theorem C59_conditional : forall psnr l e a b,
  compare_with psnr [XOr (XNums []) e] a b = compare_with psnr [e] a b /\ compare_with psnr [XAnd (XNums []) e] a b = Err EAttr /\
  (l <> [] -> compare_with psnr [XAnd (XNums l) e] a b = compare_with psnr [e] a b /\ compare_with psnr [XOr (XNums l) e] a b = Err EAttr).
Proof. exact conditional. Qed.
Print Assumptions C59_conditional.
Example C59_conditional_ex : verdict (compare_with no_psnr [XAnd (XNums [Some 1]) (XAttr (XName NExclude) $"data")] (ex_s16 5 [1; 2]) (ex_s16 5 [1; 3])) = Ok true /\
  verdict (compare_with no_psnr [XOr (XNums [Some 1]) (XAttr (XName NExclude) $"data")] (ex_s16 5 [1; 2]) (ex_s16 5 [1; 3])) = Err EAttr.
Proof. vm_compute. auto. Qed.
(** [l == PSNR.n < e] is an error however the grains compare, and [l != PSNR.n < e] is [PSNR.n < e]: equality with a list is decided when it is written. *)
Theorem C59_equal_refuted : forall psnr n l d e v a b, plain_name n -> eval e = Ok v ->
  compare_with psnr [XChain (XNums l) Eq (XAttr (XName NPsnr) n) d e] a b = Err EAttr /\
  compare_with psnr [XChain (XNums l) Ne (XAttr (XName NPsnr) n) d e] a b = compare_with psnr [XCmp d (XAttr (XName NPsnr) n) e] a b.
Proof. exact equal_chain. Qed.
Print Assumptions C59_equal_refuted.
Example C59_equal_ex : let p := XAttr (XName NPsnr) $"data" in verdict (compare_with no_psnr [XChain (XNums [Some 1]) Eq p Gt (XNums [Some 40])] (ex_s16 5 [1; 2]) (ex_s16 5 [1; 2])) = Err EAttr /\
  eval (XChain (XNums [Some 1]) Ne p Gt (XNums [Some 40])) = eval (XCmp Gt p (XNums [Some 40])).
Proof. vm_compute. auto. Qed.
(** Bare names are accepted and do nothing; elements of lists cannot be named; [PSNR.data == ...] is no option, and an error. *)
Example C59_odd_ex : arguments [XName NExclude; XAttr (XName NExpected) $"origin_timestamp"; XAttr (XName NPsnr) $"data"] = Ok [] /\
  eval (XItem (XAttr (XName NExclude) $"timelabels") 0) = Err EType /\ eval (XCmp Lt (XItem (XAttr (XName NExpected) $"unit_offsets") 0) (XNum 3)) = Err EType /\
  arguments [XCmp Eq (XAttr (XName NPsnr) $"data") (XNums [Some 40])] = Err EAttr.
Proof. vm_compute. auto. Qed.
(** Options are equal when they are of one kind and of one attribute; such an equality is no option. *)
Theorem C59_same_option : forall n m, plain_name n -> plain_name m ->
  (eval (XCmp Eq (XAttr (XName NExclude) n) (XAttr (XName NExclude) m)) = Ok (VBool true) <-> n = m) /\
  (eval (XCmp Eq (XAttr (XName NInclude) n) (XAttr (XName NInclude) m)) = Ok (VBool true) <-> n = m) /\
  eval (XCmp Eq (XAttr (XName NExclude) n) (XAttr (XName NInclude) m)) = Ok (VBool false).
Proof. exact options_equal. Qed.
Print Assumptions C59_same_option.
Example C59_same_option_ex : let e n := XAttr (XName NExclude) n in
  eval (XCmp Eq (e $"data") (e $"data")) = Ok (VBool true) /\ eval (XCmp Eq (e $"data") (e $"length")) = Ok (VBool false) /\ eval (XCmp Ne (e $"data") (e $"length")) = Ok (VBool true) /\
  arguments [XCmp Eq (e $"data") (e $"data")] = Err EAttr.
Proof. vm_compute. auto. Qed.
