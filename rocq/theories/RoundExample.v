(** Grains for the examples of C71. *)
From Coq Require Import String.
From Verif Require Import Base CogEnums VideoLayout PyValue GrainObj GrainGsf NpView NpConvert NpObject NpSpec NpConvSpec PsnrSpec NpObjectMore NpObjectExample Compare.
Local Open Scope list_scope.

Definition rd_420 : gobj := nx_video U8_420 4 2 [10; 20; 30; 40; 50; 60; 70; 80; 1; 2; 3; 4].
Definition rd_422 : gobj := nx_video U8_422 2 2 [10; 20; 30; 40; 1; 2; 3; 4].
Definition rd_10 : gobj := nx_video S16_422_10BIT 2 2 [1; 1; 2; 2; 3; 3; 4; 0; 5; 1; 6; 2; 7; 3; 8; 0].
Definition rd_deep : gobj := nx_video S16_422_10BIT 2 2 [1; 4; 2; 2; 3; 3; 4; 0; 5; 1; 6; 2; 7; 3; 8; 0].
Definition rd_rgbx : gobj := nx_video RGBx 2 2 [1; 2; 3; 9; 4; 5; 6; 9; 7; 8; 9; 9; 10; 11; 12; 9].
Definition rd_through (fmts : list Z) (o : gobj) : res gobj := np_converts nx_u5 99 4 nx_noise o fmts.
Definition rd_payload (r : res gobj) : res (option bytes) := rbind r get_data.
Definition rd_verdict (fmts : list Z) (opts : list copt) (o : gobj) : res bool :=
  rbind (rd_through fmts o) (fun o' => rbind (compare_grain (fun _ _ => Err EValue) opts o o') (fun r => Ok (r_equal r))).
Lemma rd_422_video : video_of rd_422 U8_422 2 2 [10; 20; 30; 40; 1; 2; 3; 4].
Proof.
  destruct (np_made 5 1 2 30 40 (Some 50) (25, 1) (1, 25) U8_422 2 2 1 [10; 20; 30; 40; 1; 2; 3; 4]) as (o & E & V & _); try reflexivity; try (intros X; discriminate X).
  - unfold formats. apply in_or_app. left. cbn [kinds map fst In]. tauto.
  - unfold rd_422, nx_video, nx_kw. rewrite E. exact V.
Qed.
