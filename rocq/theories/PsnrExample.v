(** Grains for the examples of C61. *)
From Coq Require Import String.
From Verif Require Import Base CogEnums VideoLayout PyValue GrainObj GrainGsf NpView NpAudio Psnr.
Local Open Scope list_scope.

Definition ex_psnr_kw : kw := mkKw (Some 1) (Some 2) None None None (25, 1) (1, 25).
Definition ex_video (f w h : Z) (d : bytes) : gobj := match kw_video 5 ex_psnr_kw f w h 0 (ABytes d) with Ok o => o | Err _ => mkO KGrain [] None None end.
Definition ex_audio (f samples channels : Z) (d : bytes) : gobj := match kw_audio 5 ex_psnr_kw f samples channels 48000 (ABytes d) with Ok o => o | Err _ => mkO KGrain [] None None end.
Definition ratio (r : gobj * gobj * res (list pval)) : res (list pval) := snd r.
Definition payload_after (r : gobj * gobj * res (list pval)) : option bytes := o_data (fst (fst r)).
