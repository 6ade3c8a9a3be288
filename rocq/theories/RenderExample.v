(** For the examples in PropsRender.v. *)
From Coq Require Import String.
From Verif Require Import Base PyValue GrainObj Compare CompareExample Render RenderSpec.
Local Open Scope list_scope.

(** Comparisons that say which part they are about, in two ways, and one line of details below failed payloads. *)
Definition ex_own (r : cres) : str := r_id r.
Definition ex_own' (r : cres) : str := if r_equal r then $"fine" else r_id r.
Definition ex_more (r : cres) : list str := if zlist_eqb (r_id r) (path $"data") && negb (r_equal r) then [$"replace"] else [].
(** Part of a real comparison, small enough to be shown. *)
Definition ex_small (r : res cres) : cres :=
  match r with
  | Ok (CR i a k o e l) => CR i a k o e (filter (fun c => existsb (zlist_eqb (r_id c)) (map path [$"flow_id"; $"timelabels"; $"creation_timestamp"; $"data"])) l)
  | Err _ => CR [] None None [] true []
  end.
Definition ex_result : res cres := compare_grain no_psnr [] (ex_audio 2 7 1000 5 [1; 2]) (ex_audio 2 8 1000 6 [1; 3]).
Lemma ex_no_line (s : str) : forallb (fun c => negb (c =? 10)) s = true -> ~ In 10 s.
Proof. intros H I. rewrite forallb_forall in H. discriminate (H 10 I). Qed.
Fixpoint parts (r : cres) : list cres := match r with CR _ _ _ _ _ l => r :: flat_map parts l end.
Lemma parts_of r c : part_of r c -> In c (parts r).
Proof.
  induction 1 as [[i a k o e l]|[i a k o e l] c d H _ IH]; [left; reflexivity|]. right. apply in_flat_map. exists c. split; [exact H|exact IH].
Qed.
Lemma ex_tidy own : forallb (fun c => forallb (fun c => negb (c =? 10)) (own c)) (parts (ex_small ex_result)) = true -> tidy own ex_more (ex_small ex_result).
Proof.
  intros H. rewrite forallb_forall in H. constructor; intros c Hc.
  - apply ex_no_line. apply H, parts_of, Hc.
  - intros _. unfold ex_more. destruct (zlist_eqb _ _ && _); constructor; [|constructor]. split; [apply ex_no_line; reflexivity|].
    exists 114, $"eplace". split; [reflexivity|]. cbn [In]. intuition discriminate.
Qed.
