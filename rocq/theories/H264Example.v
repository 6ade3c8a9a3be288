(** Example streams for PropsH264.v. *)
From Verif Require Import Base PatternTime Wrap WrapSpec H264 H264Spec H264StreamSpec.
From Coq Require Import Lia.

(** A picture parameter set with an explicit map of slice groups. *)
Definition grouped : pic_set := mkPic 3 0 0 false false (Some (1, Explicit [0; 1; 1; 0])) 0 0 false 0 0 0 0 false false true.

(** 720x576 interlaced, cropped to 568 lines, with scaling lists, an aspect ratio and a rate. *)
Definition ex_vui : vui_part := mkVui (Some (Extended 64 45)) None (Some (5, true, Some (1, 1, 1))) None (Some (1, 50, true)).
Definition ex_seq : seq_set :=
  mkSeq 3 100 0 31 0 (Some (mkChroma 1 false 0 0 false (Some [Some (repeat 0 16); None; None; None; None; None; None; Some [-8]])))
    0 (Poc0 2) 4 false 44 17 (Some true) true (Some (0, 0, 0, 2)) (Some ex_vui).
Definition ex_pic : pic_set := mkPic 3 0 0 true true (Some (1, Interleaved [5; 6])) 0 0 false 0 (-3) 0 1 true false true.
Definition ex_slice (unit type num lsb red : Z) : slice_part := mkSlice 1 unit 0 type 0 0 num false false 0 lsb (-1) 0 0 red.

(** Three access units: a key picture in two slices with parameter sets, a picture with a redundant slice, another one. Zeros
    come before the first, within it, between it and the next, and at the end; two slices end in zero words. *)
Definition ex_au1 : access_unit :=
  mkAu [(3%nat, OtherU 0 9 [true; true; true]); (1%nat, SeqU ex_seq []); (1%nat, PicU ex_pic [])] 0 ex_seq ex_pic (ex_slice 5 7 0 0 0)
    ([false; false; true], O) [(0%nat, SliceU ex_seq ex_pic (ex_slice 5 7 0 0 0) ([], 2%nat)); (2%nat, OtherU 0 12 [true])] 4.
Definition ex_au2 : access_unit :=
  mkAu [] 1 ex_seq ex_pic (ex_slice 1 5 1 2 0) ([true; true], 1%nat) [(0%nat, SliceU ex_seq ex_pic (ex_slice 1 7 1 2 1) ([], O))] 0.
Definition ex_au3 : access_unit := mkAu [(0%nat, OtherU 0 6 [true])] 0 ex_seq ex_pic (ex_slice 1 7 1 2 0) ([], O) [] 2.
Definition ex_stream : bytes := flat_map a_bytes [ex_au1; ex_au2; ex_au3].



Lemma ex_scaling i ds :
  nth_error [Some (repeat 0 16); None; None; None; None; None; None; Some [-8]] i = Some (Some ds) ->
  scaling_ok (if (i <? 6)%nat then 16 else 64) ds.
Proof.
  intros H. destruct i as [|[|[|[|[|[|[|[|i]]]]]]]]; cbn [nth_error] in H; try discriminate H; try injection H as <-.
  - split; [vm_compute; lia|]. split; [|now left]. intros k K.
    do 16 (destruct k as [|k]; [vm_compute; discriminate|]). vm_compute in K. lia.
  - split; [vm_compute; lia|]. split; [|now right]. intros k K. vm_compute in K. lia.
  - destruct i; discriminate H.
Qed.

Lemma ex_vui_ok : vui_ok ex_vui.
Proof.
  split; [|split; [|split]].
  - intros a H. injection H as <-. repeat split; discriminate.
  - intros a H. injection H as <-. repeat split; discriminate.
  - intros t b H. discriminate H.
  - intros u a f H. injection H as <- <- <-. repeat split; discriminate.
Qed.

Lemma ex_seq_ok : seq_ok ex_seq.
Proof.
  do 5 (split; [split; [discriminate|reflexivity]|]). split.
  { split; [now left|]. do 3 (split; [split; [discriminate|reflexivity]|]). split; [reflexivity|].
    intros l H. injection H as <-. split; [reflexivity|]. exact ex_scaling. }
  do 5 (split; [discriminate|]). split.
  - intros l r t b H. injection H as <- <- <- <-. repeat split; discriminate.
  - intros v H. injection H as <-. exact ex_vui_ok.
Qed.

Lemma ex_pic_ok : pic_ok ex_pic /\ readable_groups ex_pic.
Proof.
  split.
  - split; [split; [discriminate|reflexivity]|]. do 2 (split; [discriminate|]). split.
    + intros n g H. injection H as <- <-. split; [reflexivity|]. split; [reflexivity|]. repeat (apply Forall_cons; [discriminate|]). apply Forall_nil.
    + do 2 (split; [discriminate|]). split; [discriminate|reflexivity].
  - intros n ids H. discriminate H.
Qed.

Lemma ex_slice_ok unit type n lsb red : In unit [1; 2; 5] -> In type [0; 5; 7] -> below 16 n -> below 64 lsb -> 0 <= red ->
  slice_ok ex_seq ex_pic (ex_slice unit type n lsb red).
Proof.
  intros U0 T N L R. split; [split; [discriminate|reflexivity]|]. split; [cbn in U0 |- *; cbn [s_unit ex_slice]; tauto|].
  split; [discriminate|]. split; [cbn in T |- *; lia|]. split; [discriminate|]. split; [split; [discriminate|reflexivity]|].
  split; [exact N|]. split; [discriminate|]. split; [reflexivity|]. split; [cbn [s_unit s_idr ex_slice]; destruct (unit =? 5); [discriminate|reflexivity]|].
  split; [exact L|]. split; [discriminate|]. split; [split; reflexivity|exact R].
Qed.

Lemma ex_known k unit type n lsb red : k_pic k 0 = Some ex_pic -> k_seq k 0 = Some ex_seq ->
  In unit [1; 2; 5] -> In type [0; 5; 7] -> below 16 n -> below 64 lsb -> 0 <= red ->
  slice_known k ex_seq ex_pic (ex_slice unit type n lsb red).
Proof. intros. split; [exact ex_seq_ok|]. split; [now apply ex_slice_ok|]. split; assumption. Qed.

Lemma ex_stream_ok : stream_ok nothing None [ex_au1; ex_au2; ex_au3].
Proof.
  assert (D : forall x n, 0 <= x -> x < n -> below n x) by (intros; split; assumption).
  split; [|split; [exact I|split; [|split; [split; [reflexivity|now left]|split; [|split; [split; [left; reflexivity|now right]|exact I]]]]]].
  - split; [|split; [|split; [reflexivity|]]].
    + repeat (apply Forall_cons || apply Forall_nil).
      * split; [apply D; [discriminate|reflexivity]|]. right. split; discriminate.
      * exact ex_seq_ok.
      * exact ex_pic_ok.
    + apply ex_known; try reflexivity; try (apply D; [discriminate|reflexivity]); try discriminate; cbn; tauto.
    + repeat (apply Forall_cons || apply Forall_nil).
      * split; [|split; reflexivity].
        apply ex_known; try reflexivity; try (apply D; [discriminate|reflexivity]); try discriminate; cbn; tauto.
      * split; [apply D; [discriminate|reflexivity]|]. right. right. right. left. split; discriminate.
  - split; [apply Forall_nil|split; [|split; [reflexivity|]]].
    + apply ex_known; try reflexivity; try (apply D; [discriminate|reflexivity]); try discriminate; cbn; tauto.
    + repeat (apply Forall_cons || apply Forall_nil).
      split; [|discriminate].
      apply ex_known; try reflexivity; try (apply D; [discriminate|reflexivity]); try discriminate; cbn; tauto.
  - split; [|split; [|split; [reflexivity|apply Forall_nil]]].
    + repeat (apply Forall_cons || apply Forall_nil). split; [apply D; [discriminate|reflexivity]|]. left. reflexivity.
    + apply ex_known; try reflexivity; try (apply D; [discriminate|reflexivity]); try discriminate; cbn; tauto.
Qed.

(** A picture whose slices have different nal_ref_idc, neither of them 0. *)
Definition ex_ref : slice_part := mkSlice 2 1 0 7 0 0 1 false false 0 2 (-1) 0 0 0.
Definition ex_pair : bytes :=
  a_bytes ex_au1 ++ unit_bytes (1%nat, SliceU ex_seq ex_pic (ex_slice 1 5 1 2 0) ([], O)) ++ unit_bytes (0%nat, SliceU ex_seq ex_pic ex_ref ([], O)).
(** A prefix unit (type 14) before the slice of the next picture. *)
Definition ex_prefix : bytes :=
  a_bytes ex_au1 ++ unit_bytes (0%nat, OtherU 1 14 [true]) ++ unit_bytes (0%nat, SliceU ex_seq ex_pic (ex_slice 1 5 1 2 0) ([], O)).
(** A slice whose header has no end, and a unit after it. *)
Definition ex_plain : pic_set := mkPic 3 1 0 true false None 0 0 false 0 0 0 0 false false false.
Definition ex_short : bytes := unit_bytes (0%nat, PicU ex_plain []) ++ a_bytes ex_au1 ++ [0; 0; 1; 33; 208; 225].
Definition ex_next : bytes := [0; 0; 1; 9; 16].
(** A picture of two slices in data partitions, the second of which is not intra coded. *)
Definition ex_parts : access_unit :=
  mkAu [(1%nat, SeqU ex_seq []); (1%nat, PicU ex_pic [])] 0 ex_seq ex_pic (ex_slice 2 7 0 0 0) ([], O)
    [(0%nat, OtherU 1 3 [true]); (0%nat, SliceU ex_seq ex_pic (ex_slice 2 5 0 0 0) ([], O)); (0%nat, OtherU 1 3 [true])] 0.
Lemma ex_parts_ok : stream_ok nothing None [ex_parts].
Proof.
  assert (D : forall x n, 0 <= x -> x < n -> below n x) by (intros; split; assumption).
  split; [|split; exact I]. split; [|split; [|split; [reflexivity|]]].
  - repeat (apply Forall_cons || apply Forall_nil); [exact ex_seq_ok|exact ex_pic_ok].
  - apply ex_known; try reflexivity; try (apply D; [discriminate|reflexivity]); try discriminate; cbn; tauto.
  - repeat (apply Forall_cons || apply Forall_nil).
    + split; [apply D; [discriminate|reflexivity]|]. right. left. reflexivity.
    + split; [|split; reflexivity]. apply ex_known; try reflexivity; try (apply D; [discriminate|reflexivity]); try discriminate; cbn; tauto.
    + split; [apply D; [discriminate|reflexivity]|]. right. left. reflexivity.
Qed.
(** One byte at a time. *)
Definition singly (b : bytes) : list bytes := map (fun x => [x]) b.
