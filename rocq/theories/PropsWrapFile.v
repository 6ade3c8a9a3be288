(** C73: the asynchronous wrapper of a BytesIO, and the in-memory asynchronous file beside it. *)
From Coq Require Import Lia.
From Verif Require Import Base AsyncBytes AsyncBytesSpec WrapBytes WrapBytesSpec WrapBytesProofs.

(** The wrapped file is an ideal file that gives fewer bytes at its end and says where a seek went. *)
Theorem C73_wrapped : forall b ops, Decent (mkId b 0) ops ->
  shorts (mkId b 0) ops (snd (wb_run (bio_new b) ops)) /\
  bio_pos (fst (wb_run (bio_new b) ops)) = id_pos (fst (id_run (mkId b 0) ops)) /\ bio_data (fst (wb_run (bio_new b) ops)) = id_data (fst (id_run (mkId b 0) ops)).
Proof. exact wrapped_ideal. Qed.
Print Assumptions C73_wrapped.
(** In particular it fills gaps with zeros after it was made shorter, and a truncation beyond the end makes nothing longer. *)
Example C73_wrapped_ex :
  let ops := [ATruncate (Some 2); ASeek 4 SeekSet; AWrite [9]; ATruncate (Some 8); ASeek 0 SeekSet; ARead 9; ARead (-1); ATell; AGetValue] in
  Decent (mkId [1; 2; 3; 4; 5; 6] 0) ops /\
  snd (wb_run (bio_new [1; 2; 3; 4; 5; 6]) ops) =
    [Ok (ONum 2); Ok (ONum 4); Ok (ONum 1); Ok (ONum 8); Ok (ONum 0); Ok (OBytes [1; 2; 0; 0; 9]); Ok (OBytes []); Ok (ONum 5); Ok (OBytes [1; 2; 0; 0; 9])].
Proof.
  split; [|vm_compute; reflexivity].
  repeat (apply Dc_cons; [vm_compute; try (left; discriminate); try (intros K; discriminate K); exact I|]). apply Dc_nil.
Qed.

(** Where both are ideal files and no read asks for more than there is, nothing but the results of seeks tells them apart. *)
Theorem C73_indistinct : forall b ops, Fair (mkId b 0) false ops -> Decent (mkId b 0) ops -> Within (mkId b 0) ops ->
  indistinct ops (snd (ab_run (ab_new b) ops)) (snd (wb_run (bio_new b) ops)) /\
  ab_pos (fst (ab_run (ab_new b) ops)) = bio_pos (fst (wb_run (bio_new b) ops)) /\ ab_value (fst (ab_run (ab_new b) ops)) = bio_data (fst (wb_run (bio_new b) ops)).
Proof. exact memory_wrapped. Qed.
Print Assumptions C73_indistinct.
Example C73_indistinct_ex :
  let ops := [AWrite [1; 2; 3; 4]; ASeek 1 SeekSet; ARead 2; ASeek 7 SeekSet; AWrite [9]; ASeek (-3) SeekEnd; AReadInto 5; ATruncate (Some 6); ATell; AGetValue] in
  Within (mkId [5] 0) ops /\
  snd (ab_run (ab_new [5]) ops) =
    [Ok (ONum 4); Ok ONone; Ok (OBytes [2; 3]); Ok ONone; Ok (ONum 1); Ok ONone; Ok (OInto 3 [0; 0; 9; 0; 0]); Ok (ONum 6); Ok (ONum 8); Ok (OBytes [1; 2; 3; 4; 0; 0])] /\
  snd (wb_run (bio_new [5]) ops) =
    [Ok (ONum 4); Ok (ONum 1); Ok (OBytes [2; 3]); Ok (ONum 7); Ok (ONum 1); Ok (ONum 5); Ok (OInto 3 [0; 0; 9; 0; 0]); Ok (ONum 6); Ok (ONum 8); Ok (OBytes [1; 2; 3; 4; 0; 0])].
Proof.
  split; [|split; vm_compute; reflexivity].
  repeat (apply Wi_cons; [vm_compute; try (intros K; discriminate K); exact I|]). apply Wi_nil.
Qed.

(** Elsewhere the two differ: at the end (an error on one side, fewer bytes on the other), *)
Theorem C73_short_refuted :
  snd (ab_run (ab_new [1; 2]) [ARead 3; ATell]) = [Err EEof; Ok (ONum 2)] /\ snd (wb_run (bio_new [1; 2]) [ARead 3; ATell]) = [Ok (OBytes [1; 2]); Ok (ONum 2)].
Proof. vm_compute. split; reflexivity. Qed.
Print Assumptions C73_short_refuted.
(** in reading everything, which a BytesIO has no [readall] for, *)
Theorem C73_readall_refuted : forall f, wb_step f AReadAll = (f, Err EAttr) /\
  snd (ab_run (ab_new [1; 2]) [AReadAll]) = [Ok (OBytes [1; 2])].
Proof. intros f. split; reflexivity. Qed.
Print Assumptions C73_readall_refuted.
(** in positions before the start, *)
Theorem C73_negative_refuted :
  snd (ab_run (ab_new [1; 2]) [ASeek (-1) SeekSet; ATell; ASeek (-5) SeekEnd; ATell]) = [Ok ONone; Ok (ONum (-1)); Ok ONone; Ok (ONum (-3))] /\
  snd (wb_run (bio_new [1; 2]) [ASeek (-1) SeekSet; ATell; ASeek (-5) SeekEnd; ATell]) = [Err EValue; Ok (ONum 0); Ok (ONum 0); Ok (ONum 0)].
Proof. vm_compute. split; reflexivity. Qed.
Print Assumptions C73_negative_refuted.
(** and in writing nothing beyond the end, which makes the in-memory file longer. *)
Theorem C73_nothing_refuted :
  snd (ab_run (ab_new [1; 2]) [ASeek 4 SeekSet; AWrite []; AGetValue]) = [Ok ONone; Ok (ONum 0); Ok (OBytes [1; 2; 0; 0])] /\
  snd (wb_run (bio_new [1; 2]) [ASeek 4 SeekSet; AWrite []; AGetValue]) = [Ok (ONum 4); Ok (ONum 0); Ok (OBytes [1; 2])].
Proof. vm_compute. split; reflexivity. Qed.
Print Assumptions C73_nothing_refuted.
