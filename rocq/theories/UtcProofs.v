From Coq Require Import Lia ZifyBool ZifyNat.
From Verif Require Import Base BaseProofs GsfPrim GsfSpec GsfPrimFacts Utc UtcSpec.
Local Open Scope list_scope.
Ltac Zify.zify_post_hook ::= Z.div_mod_to_equations.

Lemma leap_iff y : leap y = true <-> leap_year y.
Proof. unfold leap, leap_year. lia. Qed.
Lemma month_days_fun y m n : month_days y m n <-> 1 <= m <= 12 /\ n = days_in_month y m.
Proof.
  unfold month_days, days_in_month. pose proof (leap_iff y) as L. cbn [In]. destruct (leap y).
  - assert (Y : leap_year y) by (apply L; reflexivity). clear L. destruct (m =? 2) eqn:E2; destruct ((m =? 4) || (m =? 6) || (m =? 9) || (m =? 11)) eqn:E4; split;
      try (intros [H|[H|[(H & _ & K)|(H & K & _)]]]; [lia|lia|lia|contradiction]); intros [H ->]; try lia; right; right; left; (split; [lia|auto]).
  - assert (Y : ~ leap_year y) by (intros K; apply L in K; discriminate K). clear L. destruct (m =? 2) eqn:E2; destruct ((m =? 4) || (m =? 6) || (m =? 9) || (m =? 11)) eqn:E4; split;
      try (intros [H|[H|[(H & K & _)|(H & _ & K)]]]; [lia|lia|contradiction|lia]); intros [H ->]; try lia; right; right; right; (split; [lia|auto]).
Qed.
Lemma months m : 1 <= m <= 12 -> In m [1; 2; 3; 4; 5; 6; 7; 8; 9; 10; 11; 12].
Proof. cbn [In]. lia. Qed.
Ltac by_month H := apply months in H; cbn [In] in H; repeat (destruct H as [H|H]; [subst|]); [..|destruct H].

Ltac ground t := let v := eval vm_compute in t in
  match v with true => change t with true in * | false => change t with false in * | Z0 => change t with v in * | Zpos _ => change t with v in * end.
Ltac calc := repeat match goal with
  | |- context [nth ?n month_starts 0] => ground (nth n month_starts 0)
  | H : context [nth ?n month_starts 0] |- _ => ground (nth n month_starts 0)
  | |- context [?a <? ?b] => ground (a <? b)
  | H : context [?a <? ?b] |- _ => ground (a <? b)
  | |- context [?a =? ?b] => ground (a =? b)
  | H : context [?a =? ?b] |- _ => ground (a =? b)
  end; cbn [andb orb] in *.

Definition valid (a : Z * Z * Z) : Prop := let '(y, m, d) := a in 1 <= y /\ 1 <= m <= 12 /\ 1 <= d <= days_in_month y m.
Definition ord (a : Z * Z * Z) : Z := let '(y, m, d) := a in ymd2ord y m d.

Lemma next_month y m : 1 <= m < 12 -> days_before_month y (m + 1) = days_before_month y m + days_in_month y m.
Proof.
  intros H. assert (K : 1 <= m <= 12) by lia. unfold days_before_month, days_in_month. destruct (leap y); by_month K; calc; reflexivity || lia.
Qed.
Lemma year_end y : days_before_month y 12 + 31 = if leap y then 366 else 365.
Proof. unfold days_before_month. destruct (leap y); reflexivity. Qed.
Lemma next_year y : days_before_year (y + 1) = days_before_year y + if leap y then 366 else 365.
Proof. unfold days_before_year, leap. destruct (_ && _) eqn:E; lia. Qed.
Lemma ord_next a b : valid a -> next_day a b -> valid b /\ ord b = ord a + 1.
Proof.
  intros V H. inversion H as [y m d n M D|y m n M L|y]; subst; cbn [valid ord] in *.
  - apply month_days_fun in M as [M ->]. unfold ymd2ord. lia.
  - apply month_days_fun in M as [M ->]. unfold ymd2ord. rewrite next_month by lia. split; [|lia]. split; [lia|]. split; [lia|].
    unfold days_in_month. destruct (m + 1 =? 2); [destruct (leap y)|destruct (_ || _)]; lia.
  - unfold ymd2ord. rewrite next_year. change (days_before_month (y + 1) 1) with 0. pose proof (year_end y) as E. split; [|lia]. split; [lia|]. split; [lia|]. change (days_in_month (y + 1) 1) with 31. lia.
Qed.
Lemma number_ord a n : day_number a n -> valid a /\ ord a = n.
Proof.
  induction 1 as [|a b n _ [V E] N]; [split; [cbn; lia|reflexivity]|]. destruct (ord_next a b V N) as [V' E']. split; [exact V'|lia].
Qed.
Lemma month_pos y m : 1 <= m <= 12 -> 28 <= days_in_month y m.
Proof. intros H. unfold days_in_month. destruct (m =? 2); [destruct (leap y)|destruct (_ || _)]; lia. Qed.
Lemma before_pos y m : 1 <= m <= 12 -> 0 <= days_before_month y m.
Proof. intros H. unfold days_before_month. destruct (leap y); by_month H; calc; lia. Qed.
Lemma ord_pos a : valid a -> 1 <= ord a.
Proof.
  destruct a as [[y m] d]. cbn [valid ord]. intros (Y & M & D). unfold ymd2ord. pose proof (before_pos y m M). assert (0 <= days_before_year y) by (unfold days_before_year; lia). lia.
Qed.
Lemma ord_number n : forall a, (Z.to_nat (ord a) <= n)%nat -> valid a -> day_number a (ord a).
Proof.
  induction n as [|n IH]; intros a L V; [pose proof (ord_pos a V); lia|].
  assert (G : forall b, valid b -> next_day b a -> day_number a (ord a)).
  { intros b B N. destruct (ord_next b a B N) as [_ E]. rewrite E. apply dn_next with b; [|exact N]. apply IH; [|exact B]. pose proof (ord_pos b B). lia. }
  destruct a as [[y m] d]. cbn [valid] in V. destruct V as (Y & M & D). destruct (Z.eq_dec d 1) as [->|ND].
  - destruct (Z.eq_dec m 1) as [->|NM].
    + destruct (Z.eq_dec y 1) as [->|NY]; [exact dn_first|]. apply (G (y - 1, 12, 31)).
      * cbn [valid]. change (days_in_month (y - 1) 12) with 31. lia.
      * replace y with (y - 1 + 1) at 2 by lia. apply nd_year.
    + pose proof (month_pos y (m - 1) ltac:(lia)). apply (G (y, m - 1, days_in_month y (m - 1))).
      * cbn [valid]. lia.
      * replace m with (m - 1 + 1) at 3 by lia. apply nd_month; [apply month_days_fun; lia|lia].
  - apply (G (y, m, d - 1)); [cbn [valid]; lia|]. replace d with (d - 1 + 1) at 2 by lia. apply nd_day with (days_in_month y m); [apply month_days_fun; lia|lia].
Qed.
Lemma numbered a n : day_number a n <-> valid a /\ ord a = n.
Proof. split; [apply number_ord|]. intros [V <-]. exact (ord_number _ a (Nat.le_refl _) V). Qed.

(** Dates and their numbers. *)
Lemma years_le y z : 1 <= y <= z -> days_before_year y <= days_before_year z.
Proof. intros H. unfold days_before_year. lia. Qed.
Lemma within_year a : valid a -> let '(y, m, d) := a in days_before_year y < ord a <= days_before_year (y + 1).
Proof.
  destruct a as [[y m] d]. cbn [valid ord]. intros (Y & M & D). rewrite next_year. unfold ymd2ord. pose proof (before_pos y m M).
  enough (days_before_month y m + days_in_month y m <= if leap y then 366 else 365) by lia. unfold days_before_month, days_in_month. destruct (leap y); by_month M; calc; lia.
Qed.
Lemma ord_inj a b : valid a -> valid b -> ord a = ord b -> a = b.
Proof.
  intros A B E. pose proof (within_year a A) as WA. pose proof (within_year b B) as WB. destruct a as [[y m] d]. destruct b as [[z k] e].
  assert (y = z).
  { cbn [valid] in A, B. destruct (Z.lt_trichotomy y z) as [L|[L|L]]; [|exact L|].
    - pose proof (years_le (y + 1) z ltac:(lia)). lia.
    - pose proof (years_le (z + 1) y ltac:(lia)). lia. }
  subst z. clear WA WB. cbn [valid ord] in *. destruct A as (_ & M & D). destruct B as (_ & K & F). unfold ymd2ord in E.
  assert (E' : days_before_month y m + d = days_before_month y k + e) by lia. clear E.
  assert (G : m = k). 2: { subst k. f_equal. lia. }
  unfold days_before_month, days_in_month in *. destruct (leap y); by_month M; by_month K; try reflexivity; exfalso; calc; lia.
Qed.

(** The inverse. *)
Definition year_check (l : bool) : bool :=
  forallb (fun n => let '(m, d) := in_year l (Z.of_nat n) in
    (1 <=? m) && (m <=? 12) && (1 <=? d) && (d <=? (if m =? 2 then (if l then 29 else 28) else if (m =? 4) || (m =? 6) || (m =? 9) || (m =? 11) then 30 else 31)) &&
    (nth (Z.to_nat m) month_starts 0 + (if (2 <? m) && l then 1 else 0) + d =? Z.of_nat n + 1)) (seq 0 (if l then 366 else 365)).
Lemma year_checked l : year_check l = true.
Proof. destruct l; vm_compute; reflexivity. Qed.
Lemma in_year_ok y n : 0 <= n < (if leap y then 366 else 365) -> let '(m, d) := in_year (leap y) n in 1 <= m <= 12 /\ 1 <= d <= days_in_month y m /\ days_before_month y m + d = n + 1.
Proof.
  intros H. pose proof (year_checked (leap y)) as C. unfold year_check in C. rewrite forallb_forall in C.
  specialize (C (Z.to_nat n)). rewrite Z2Nat.id in C by lia. unfold days_in_month, days_before_month. destruct (in_year (leap y) n) as [m d].
  assert (I : In (Z.to_nat n) (seq 0 (if leap y then 366 else 365))) by (apply in_seq; destruct (leap y); lia).
  specialize (C I). lia.
Qed.
Lemma ord2ymd_ok n : 1 <= n -> valid (ord2ymd n) /\ ord (ord2ymd n) = n.
Proof.
  intros N. unfold ord2ymd.
  set (a := (n - 1) / 146097). set (r := (n - 1) mod 146097). set (b := r / 36524). set (r1 := r mod 36524).
  set (c := r1 / 1461). set (r2 := r1 mod 1461). set (e := r2 / 365). set (r3 := r2 mod 365). cbv zeta.
  assert (EN : n - 1 = 146097 * a + 36524 * b + 1461 * c + 365 * e + r3 /\ 0 <= a /\ 0 <= b /\ 0 <= c /\ 0 <= e /\ 0 <= r3 < 365 /\
    36524 * b + 1461 * c + 365 * e + r3 < 146097 /\ 1461 * c + 365 * e + r3 < 36524 /\ 365 * e + r3 < 1461) by (subst a r b r1 c r2 e r3; lia).
  clearbody a r b r1 c r2 e r3. clear r r1 r2. destruct EN as (EN & A & B & C & E & R & H1 & H2 & H3).
  assert (DY : forall b c e, 0 <= b <= 3 -> 0 <= c <= 24 -> 0 <= e <= 3 -> days_before_year (a * 400 + 1 + b * 100 + c * 4 + e) = 146097 * a + 36524 * b + 1461 * c + 365 * e).
  { clear - A. intros b c e B C E. unfold days_before_year. replace (a * 400 + 1 + b * 100 + c * 4 + e - 1) with (a * 400 + b * 100 + c * 4 + e) by lia.
    assert (Q4 : (a * 400 + b * 100 + c * 4 + e) / 4 = a * 100 + b * 25 + c) by lia.
    assert (Q100 : (a * 400 + b * 100 + c * 4 + e) / 100 = a * 4 + b) by lia.
    assert (Q400 : (a * 400 + b * 100 + c * 4 + e) / 400 = a) by lia. rewrite Q4, Q100, Q400. lia. }
  destruct ((e =? 4) || (b =? 4)) eqn:S.
  - cbn [valid ord]. unfold ymd2ord. set (y := a * 400 + 1 + b * 100 + c * 4 + e). pose proof (year_end (y - 1)) as YE.
    change (days_in_month (y - 1) 12) with 31. assert (Y1 : 1 <= y - 1) by (subst y; lia). split; [lia|].
    pose proof (next_year (y - 1)) as NY. replace (y - 1 + 1) with y in NY by lia.
    assert (days_before_year y = n). 2: lia.
    destruct (Z.eq_dec b 4) as [->|NB].
    + assert (c = 0 /\ e = 0 /\ r3 = 0) as (-> & -> & ->) by lia. subst y. replace (a * 400 + 1 + 4 * 100 + 0 * 4 + 0) with ((a * 400 + 1 + 3 * 100 + 24 * 4 + 3) + 1) by lia.
      rewrite next_year, DY by lia. assert (L : leap (a * 400 + 1 + 3 * 100 + 24 * 4 + 3) = true) by (unfold leap; lia). rewrite L. lia.
    + assert (e = 4) by lia. subst e. assert (r3 = 0) by lia. subst r3. subst y. replace (a * 400 + 1 + b * 100 + c * 4 + 4) with ((a * 400 + 1 + b * 100 + c * 4 + 3) + 1) by lia.
      rewrite next_year, DY by lia. assert (L : leap (a * 400 + 1 + b * 100 + c * 4 + 3) = true) by (unfold leap; lia). rewrite L. lia.
  - assert (B3 : 0 <= b <= 3) by lia. assert (C24 : 0 <= c <= 24) by lia. assert (E3 : 0 <= e <= 3) by lia.
    set (y := a * 400 + 1 + b * 100 + c * 4 + e). assert (L : ((e =? 3) && (negb (c =? 24) || (b =? 3))) = leap y) by (subst y; unfold leap; lia).
    rewrite L. assert (R' : 0 <= r3 < (if leap y then 366 else 365)) by (destruct (leap y); lia).
    pose proof (in_year_ok y r3 R') as K. destruct (in_year (leap y) r3) as [m d]. destruct K as (M & D & K). cbn [valid ord]. unfold ymd2ord.
    assert (Y1 : 1 <= y) by (subst y; lia). split; [tauto|]. specialize (DY b c e B3 C24 E3). fold y in DY. lia.
Qed.
Lemma ord_back a : valid a -> ord2ymd (ord a) = a.
Proof. intros V. destruct (ord2ymd_ok (ord a) (ord_pos a V)) as [V' E]. apply ord_inj; assumption. Qed.
Lemma ord_max a : valid a -> ord a <= MAXORDINAL <-> fst (fst a) <= 9999.
Proof.
  intros V. pose proof (within_year a V) as W. destruct a as [[y m] d]. cbn [fst]. change MAXORDINAL with (days_before_year 10000). cbn [valid] in V. split; intros H.
  - destruct (Z.le_gt_cases y 9999) as [L|L]; [exact L|]. pose proof (years_le 10000 y ltac:(lia)). lia.
  - pose proof (years_le (y + 1) 10000 ltac:(lia)). lia.
Qed.
Lemma exists_valid d : date_exists d <-> valid (dt_year d, dt_month d, dt_day d) /\ dt_year d <= 9999 /\ 0 <= dt_hour d <= 23 /\ 0 <= dt_min d <= 59 /\ 0 <= dt_sec d <= 59.
Proof.
  unfold date_exists, valid. split.
  - intros (Y & (n & M & D) & R). apply month_days_fun in M as [M ->]. tauto.
  - intros ((Y & M & D) & L & R). split; [tauto|]. split; [|exact R]. exists (days_in_month (dt_year d) (dt_month d)). split; [apply month_days_fun; auto|exact D].
Qed.

Definition clock (d : datetime) : Z := (dt_hour d * 60 + dt_min d) * 60 + dt_sec d.
Lemma instant_iff m t : instant m t <-> valid (dt_year (mo_at m), dt_month (mo_at m), dt_day (mo_at m)) /\
  t = (ymd2ord (dt_year (mo_at m)) (dt_month (mo_at m)) (dt_day (mo_at m)) * 86400 + clock (mo_at m)) * 1000000 + mo_micro m - match mo_offset m with Some o => o | None => 0 end.
Proof.
  unfold instant, clock. split.
  - intros (n & N & ->). apply numbered in N as [V <-]. split; [exact V|]. cbn [ord]. lia.
  - intros [V ->]. exists (ymd2ord (dt_year (mo_at m)) (dt_month (mo_at m)) (dt_day (mo_at m))). split; [apply numbered; split; [exact V|reflexivity]|]. lia.
Qed.
Lemma one_instant m : date_exists (mo_at m) -> exists t, instant m t.
Proof. intros H. apply exists_valid in H as [V _]. eexists. apply instant_iff. split; [exact V|reflexivity]. Qed.
Lemma same_instant m t u : instant m t -> instant m u -> t = u.
Proof. intros A B. apply instant_iff in A as [_ ->]. apply instant_iff in B as [_ ->]. reflexivity. Qed.

(** Subtraction. *)
Lemma subtracted d micro o e f : date_exists d -> subtract d micro o = Some (e, f) -> date_exists e /\ 0 <= f < 1000000 /\
  (ymd2ord (dt_year e) (dt_month e) (dt_day e) * 86400 + clock e) * 1000000 + f = (ymd2ord (dt_year d) (dt_month d) (dt_day d) * 86400 + clock d) * 1000000 + micro - o.
Proof.
  intros D H. unfold subtract in H. fold (clock d) in H. set (t := clock d * 1000000 + micro - o) in *. set (n := ymd2ord (dt_year d) (dt_month d) (dt_day d) + t / DAY) in *.
  destruct ((0 <? n) && (n <=? MAXORDINAL)) eqn:R; [|discriminate H]. destruct (ord2ymd_ok n ltac:(lia)) as [V E]. destruct (ord2ymd n) as [[y m] dd]. injection H as <- <-.
  cbn [dt_year dt_month dt_day]. assert (Y : y <= 9999) by (pose proof (ord_max (y, m, dd) V) as M; cbn [fst] in M; apply M; cbn [ord] in *; lia).
  cbn [ord] in E. split; [|split].
  - apply exists_valid. cbn [dt_year dt_month dt_day dt_hour dt_min dt_sec]. split; [exact V|]. split; [exact Y|]. clear - t. unfold DAY. set (w := t mod 86400000000).
    assert (0 <= w < 86400000000) by (subst w; lia). clearbody w. lia.
  - clear - t. unfold DAY. lia.
  - rewrite E. unfold clock at 1. cbn [dt_hour dt_min dt_sec]. subst n. clear - t. unfold DAY.
    assert (T : t = 86400000000 * (t / 86400000000) + t mod 86400000000) by lia. set (w := t mod 86400000000) in *. set (q := t / 86400000000) in *. clearbody w q.
    assert (W : w = 1000000 * (w / 1000000) + w mod 1000000) by lia. set (s := w / 1000000) in *. set (f := w mod 1000000) in *. clearbody s f.
    assert (K : (s / 3600 * 60 + s mod 3600 / 60) * 60 + s mod 3600 mod 60 = s) by lia. rewrite K. unfold t in T. lia.
Qed.
Lemma not_subtracted d micro o : date_exists d -> 0 <= micro < 1000000 ->
  subtract d micro o = None <-> forall e f, date_exists e -> 0 <= f < 1000000 ->
  (ymd2ord (dt_year e) (dt_month e) (dt_day e) * 86400 + clock e) * 1000000 + f <> (ymd2ord (dt_year d) (dt_month d) (dt_day d) * 86400 + clock d) * 1000000 + micro - o.
Proof.
  intros D M. split.
  - intros H e f E F Q. apply exists_valid in E as (V & Y & C). unfold subtract in H. fold (clock d) in H. set (t := clock d * 1000000 + micro - o) in *. set (n := ymd2ord (dt_year d) (dt_month d) (dt_day d) + t / DAY) in *.
    destruct ((0 <? n) && (n <=? MAXORDINAL)) eqn:R; [destruct (ord2ymd n) as [[? ?] ?]; discriminate H|].
    pose proof (ord_pos _ V) as P. pose proof (proj2 (ord_max _ V) Y) as X. cbn [ord] in P, X.
    assert (n = ymd2ord (dt_year e) (dt_month e) (dt_day e)). 2: lia.
    subst n. set (p := ymd2ord (dt_year e) (dt_month e) (dt_day e)) in *. set (q := ymd2ord (dt_year d) (dt_month d) (dt_day d)) in *. clearbody p q.
    assert (CE : 0 <= clock e < 86400) by (unfold clock; lia). set (ce := clock e) in *. clearbody ce.
    assert (T : t = (p - q) * 86400000000 + (ce * 1000000 + f)) by (unfold t; lia). unfold DAY. rewrite T. clear - CE F. rewrite Z.div_add_l by lia. rewrite (Z.div_small (ce * 1000000 + f)) by lia. lia.
  - intros H. destruct (subtract d micro o) as [[e f]|] eqn:S; [|reflexivity]. exfalso. destruct (subtracted d micro o e f D S) as (E & F & Q). exact (H e f E F Q).
Qed.

Lemma utc_same m u : moment_ok m -> ensure_utc m = Some u -> moment_ok u /\ mo_offset u = Some 0 /\ forall t, instant m t <-> instant u t.
Proof.
  intros [D M] H. unfold ensure_utc in H. destruct (mo_offset m) as [o|] eqn:O.
  - destruct (subtract (mo_at m) (mo_micro m) o) as [[e f]|] eqn:S; [|discriminate H]. injection H as <-. destruct (subtracted _ _ _ _ _ D S) as (E & F & Q). cbn [fst snd].
    split; [split; assumption|]. split; [reflexivity|]. intros t. rewrite !instant_iff, O. cbn [mo_at mo_micro mo_offset]. apply exists_valid in D as [VD _]. apply exists_valid in E as [VE _].
    split; intros [_ ->]; (split; [assumption|lia]).
  - injection H as <-. split; [split; assumption|]. split; [reflexivity|]. intros t. rewrite !instant_iff, O. reflexivity.
Qed.
Lemma utc_overflow m : moment_ok m -> ensure_utc m = None <-> forall u t, moment_ok u -> mo_offset u = Some 0 -> instant m t -> ~ instant u t.
Proof.
  intros [D M]. pose proof D as D'. apply exists_valid in D' as [VD _]. split.
  - intros H u t [E F] O I K. unfold ensure_utc in H. destruct (mo_offset m) as [o|] eqn:OM; [|discriminate H]. destruct (subtract (mo_at m) (mo_micro m) o) as [[e f]|] eqn:S; [discriminate H|].
    apply (proj1 (not_subtracted (mo_at m) (mo_micro m) o D M) S (mo_at u) (mo_micro u) E F). apply instant_iff in I as [_ I]. apply instant_iff in K as [_ K]. rewrite OM in I. rewrite O in K. lia.
  - intros H. destruct (ensure_utc m) as [u|] eqn:U; [|reflexivity]. exfalso. destruct (utc_same m u (conj D M) U) as (OU & O & S).
    destruct (one_instant m D) as [t T]. exact (H u t OU O T (proj1 (S t) T)).
Qed.
Lemma utc_again m u : moment_ok m -> ensure_utc m = Some u -> ensure_utc u = Some u.
Proof.
  intros OK H. destruct (utc_same m u OK H) as ((D & M) & O & _). destruct u as [d f o]. cbn [mo_at mo_micro mo_offset] in *. subst o. unfold ensure_utc. cbn [mo_at mo_micro mo_offset].
  apply exists_valid in D as D'. destruct D' as (V & Y & C). unfold subtract. fold (clock d). replace (clock d * 1000000 + f - 0) with (clock d * 1000000 + f) by lia.
  assert (CD : 0 <= clock d < 86400) by (unfold clock; lia). unfold DAY. rewrite (Z.div_small (clock d * 1000000 + f)) by lia. rewrite (Z.mod_small (clock d * 1000000 + f)) by lia. rewrite Z.add_0_r.
  pose proof (ord_pos _ V) as P. pose proof (proj2 (ord_max _ V) Y) as X. pose proof (ord_back _ V) as B. cbn [ord] in P, X, B. rewrite B.
  replace ((0 <? ymd2ord (dt_year d) (dt_month d) (dt_day d)) && (ymd2ord (dt_year d) (dt_month d) (dt_day d) <=? MAXORDINAL)) with true by lia.
  cbn [option_map fst snd]. do 2 f_equal; [|lia]. replace ((clock d * 1000000 + f) / 1000000) with (clock d) by lia. destruct d as [y mo da h mi s]. unfold clock in *. cbn [dt_year dt_month dt_day dt_hour dt_min dt_sec] in *.
  f_equal; lia.
Qed.
Lemma utc_unique u v t : moment_ok u -> moment_ok v -> mo_offset u = Some 0 -> mo_offset v = Some 0 -> instant u t -> instant v t -> u = v.
Proof.
  intros [U FU] [W FV] OU OV I J. apply instant_iff in I as [VU I]. apply instant_iff in J as [VV J]. rewrite OU in I. rewrite OV in J. apply exists_valid in U as (_ & _ & CU). apply exists_valid in W as (_ & _ & CV).
  destruct u as [[y m d h mi s] f o]. destruct v as [[y' m' d' h' mi' s'] f' o']. unfold clock in *. cbn [mo_at mo_micro mo_offset dt_year dt_month dt_day dt_hour dt_min dt_sec] in *. subst o o' t.
  assert (E : ymd2ord y m d = ymd2ord y' m' d' /\ h = h' /\ mi = mi' /\ s = s' /\ f = f').
  { set (p := ymd2ord y m d) in *. set (q := ymd2ord y' m' d') in *. clearbody p q. clear VU VV. lia. }
  destruct E as (E & -> & -> & -> & ->). assert (X : (y, m, d) = (y', m', d')) by (apply ord_inj; assumption). injection X as -> -> ->. reflexivity.
Qed.

Lemma utc_only m u : moment_ok m -> ensure_utc m = Some u -> moment_ok u /\ mo_offset u = Some 0 /\ (exists t, instant m t /\ instant u t) /\
  forall v t, moment_ok v -> mo_offset v = Some 0 -> instant m t -> instant v t -> v = u.
Proof.
  intros M H. destruct (utc_same m u M H) as (OU & ZU & E). split; [exact OU|]. split; [exact ZU|]. split.
  - destruct (one_instant m (proj1 M)) as [t T]. exists t. split; [exact T|]. apply E, T.
  - intros v t OV ZV I J. apply E in I. exact (utc_unique v u t OV OU ZV ZU J I).
Qed.

(** The time in the file. *)
Lemma created_seconds m d : moment_ok m -> created_time m = Some d -> date_exists d /\ forall t, instant m t -> exists s, instant (utc d) (s * 1000000) /\ s * 1000000 <= t < (s + 1) * 1000000.
Proof.
  intros OK H. unfold created_time in H. destruct (ensure_utc m) as [u|] eqn:U; [|discriminate H]. rewrite (utc_again m u OK U) in H. injection H as <-.
  destruct (utc_same m u OK U) as ((D & M) & O & S). split; [exact D|]. intros t T. apply S in T. apply instant_iff in T as [V ->]. rewrite O.
  exists (ymd2ord (dt_year (mo_at u)) (dt_month (mo_at u)) (dt_day (mo_at u)) * 86400 + clock (mo_at u)). split; [|lia]. apply instant_iff. cbn [utc mo_at mo_micro mo_offset]. split; [exact V|lia].
Qed.
Lemma created_fails m : created_time m = None <-> ensure_utc m = None \/ exists u, ensure_utc m = Some u /\ ensure_utc u = None.
Proof.
  unfold created_time. destruct (ensure_utc m) as [u|]; [|tauto]. split.
  - intros H. right. exists u. split; [reflexivity|]. destruct (ensure_utc u); [discriminate H|reflexivity].
  - intros [H|(v & E & H)]; [discriminate H|]. injection E as <-. rewrite H. reflexivity.
Qed.
