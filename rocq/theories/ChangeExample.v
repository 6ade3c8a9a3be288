(** For the examples in PropsChange.v. *)
From Coq Require Import String.
From Verif Require Import Base PyValue CogEnums GrainObj Compare CompareSpec CompareExample SavedExample GrainGsfSpec GrainSetMain GrainSetShape GrainSetExample.
From Verif Require GrainSetSpec.
Local Open Scope list_scope.

(** What the theorems ask of a grain. *)
Definition ready (o : gobj) : Prop := GrainSetSpec.shaped o /\ of_own_type o /\ meta_ok o /\ stored_ok o /\ no_nan o /\ can_compare no_psnr [] o o.
Definition outline (r : res cres) : res (bool * list str) := rbind r (fun r => Ok (r_equal r, failing_attributes r)).
Lemma ex_coded_ready : ready ex_coded.
Proof.
  split; [apply made_shaped; exact (GrainSetSpec.made_coded_video 5 ex_kw H264 16 8 None None (Some true) (Some 3) None 0 (Some [0; 4]) (ABytes [1; 2; 3]) ex_coded eq_refl)|].
  split; [vm_compute; reflexivity|]. split; [unfold meta_ok; dict_good|].
  split; [intros x E; vm_compute in E; injection E as <-; apply small_bytes; reflexivity|].
  split; [intros f x E; vm_compute in E; discriminate E|]. apply sv_compares, compares. vm_compute. reflexivity.
Qed.
