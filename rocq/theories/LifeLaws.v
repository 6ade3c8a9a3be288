From Coq Require Import String.
From Verif Require Import Base GsfDecode PyValue GrainObj GrainSet GrainSetSpec GrainSetMain Compare CompareSpec CompareLaws GrainPair GrainPairSpec GrainPairMain LifeSpec LifeMain GrainSetSpec.
Local Open Scope list_scope.

Theorem lives_assigned o n so v : lives o -> dget n (sorts (o_class o)) = Some so -> sayable so v -> exists eff, accepts so v eff /\
  match eff with
  | Refused e => set_attr n v o = Err e
  | Reads r => exists o', set_attr n v o = Ok o' /\ lives o' /\ untouched o o' /\
      forall m, dget m (sorts (o_class o)) <> None -> getattr o' m = if same_attr n m then r else getattr o m
  end.
Proof.
  intros L S Y. destruct (lives_good o L) as (_ & _ & H). destruct (assignment o n so v H S Y) as (eff & A & E). exists eff. split; [exact A|]. destruct eff as [e|r]; [exact E|].
  destruct E as (o' & E & _ & U & G). exists o'. split; [exact E|]. split; [exact (lv_attr o n v o' L (proj1 Y) E)|]. split; assumption.
Qed.
Theorem lives_compared psnr opts a b r : no_matchers opts -> lives a -> lives b -> compare_grain psnr opts a b = Ok r ->
  (exists r', compare_grain psnr opts b a = Ok r' /\ r_equal r' = r_equal r) /\ (a = b -> no_nan a -> r_equal r = true).
Proof.
  intros N A B E. destruct (lives_good a A) as (Ma & Sa & _). destruct (lives_good b B) as (Mb & Sb & _). split; [exact (grain_sym psnr opts a b r N Ma Mb Sa Sb E)|].
  intros <- NN. exact (grain_refl psnr opts a r N Ma Sa NN E).
Qed.
Theorem lives_equal a b c : lives a -> lives b -> lives c ->
  (grain_eq a (OGrain b) = Ok true <-> alike a b) /\ (has_payload a -> grain_eq a (OGrain a) = Ok true) /\
  (has_payload a -> has_payload b -> grain_eq a (OGrain b) = grain_eq b (OGrain a)) /\
  (grain_eq a (OGrain b) = Ok true -> grain_eq b (OGrain c) = Ok true -> grain_eq a (OGrain c) = Ok true).
Proof.
  intros A B C. destruct (lives_good a A) as (Ma & _). destruct (lives_good b B) as (Mb & _). destruct (lives_good c C) as (Mc & _).
  split; [exact (equal_iff a b Ma Mb)|]. split; [exact (equal_refl_grain a Ma)|]. split; [|exact (equal_trans_grain a b c Ma Mb Mc)].
  intros P Q. destruct (equal_sym_grain a b Ma Mb) as [E|[X _]]; [exact E|destruct (X P)].
Qed.
