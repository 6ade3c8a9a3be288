(** Concrete encoder states and histories used in the examples beside the theorems. *)
From Verif Require Import Base BaseProofs Utf8 Utf8Proofs GsfPrim GsfPrimProofs GsfBlock GsfBlockProofs GsfDecode
  CogEnums GsfEncode GsfSpec GsfCodecProofs GsfEncodeProofs GsfFileSpec GsfExamples GsfEncState GsfEncSpec GsfEncDecodeSpec GsfSplitSpec.
From Coq Require Import ZifyBool ZifyNat.

(** An encoder with two segments (local ids 1 and 4, the second with a flow) and a file tag. *)
Definition ex_setup : list op :=
  [EAddSegment (ex_uuid 5) None [([107], [118])]; EAddSegment (ex_uuid 6) (Some 4) [];
   SAddFlow 4 (mkEFlow (ex_uuid 1) (ex_uuid 3) [97] [123; 125]); EAddTag ([116], [120; 233])].
Definition ex_enc (seekable streaming : bool) : enc :=
  run_ops (new_encoder (mkOut [] 0 seekable) 8 0 (ex_uuid 9) ex_created streaming) ex_setup.

Lemma ex_enc_reachable sk st : reachable (ex_enc sk st).
Proof. repeat eexists. Qed.

Lemma ex_enc_orderly sk st : orderly_state (ex_enc sk st).
Proof.
  exists (mkOut [] 0 sk), 8, 0, (ex_uuid 9), ex_created, st, ex_setup. split; [|reflexivity].
  unfold ex_setup. repeat (constructor; [first [reflexivity|exact I]|]). constructor.
Qed.

Lemma ex_enc_idle sk st : idle (ex_enc sk st).
Proof. constructor. Qed.

Lemma ex_enc_from sk st : from_encoder (ex_enc sk st).
Proof. repeat constructor. Qed.

Lemma ex_enc_fits sk st : head_fits (ex_enc sk st).
Proof.
  unfold head_fits. cbn [ex_enc ex_setup run_ops step new_encoder e_major e_minor e_id e_created].
  split; [auto|]. split; [unfold u16; cbn; lia|]. split; [apply ex_uuid_ok; lia|]. split; [reflexivity|]. split.
  { constructor; [|constructor]. split; cbn [fst snd].
    + apply small_text; [repeat constructor|vm_compute; discriminate].
    + split; [repeat constructor; unfold scalar; lia|]. split; [split; discriminate|vm_compute; discriminate]. }
  split; [|vm_compute; reflexivity].
  constructor; [|constructor; [|constructor]].
  - unfold seg_fits. cbn. split; [unfold u16; lia|]. split; [apply (ex_uuid_ok 5); lia|]. split; [|exact I].
    constructor; [|constructor]. split; cbn [fst snd]; (apply small_text; [repeat constructor|vm_compute; discriminate]).
  - unfold seg_fits. cbn. split; [unfold u16; lia|]. split; [apply (ex_uuid_ok 6); lia|]. split; [constructor|].
    exists [123; 125]. unfold flow_fits. cbn. split; [apply (ex_uuid_ok 1); lia|]. split; [apply (ex_uuid_ok 3); lia|].
    split; [|reflexivity]. apply small_text; [repeat constructor|vm_compute; discriminate].
Qed.

Lemma ex_enc_sized sk st : head_sized (e_id (ex_enc sk st)) (e_created (ex_enc sk st))
  (with_counts (fun _ => 0) (e_segs (ex_enc sk st))) (e_tags (ex_enc sk st)).
Proof. split; [reflexivity|]. split; [|vm_compute; reflexivity]. repeat constructor. Qed.

(** Grains added by segment id, by local id, through the segment, and by no id at all (the lowest local id). *)
Definition ex_adds : list op :=
  [EAddGrains [ex_event] (Some (ex_uuid 6)) None []; EAddGrains [ex_video] None None [];
   SAddGrains 4 [ex_audio; ex_event]; EAddGrains [ex_audio] None (Some 1) []].
Definition ex_logs : list (Z * grain) := [(4, ex_event); (1, ex_video); (4, ex_audio); (4, ex_event); (1, ex_audio)].

(** The same through an asynchronous session number [n]. *)
Definition ex_async_adds (n : nat) : list op :=
  [OAddGrains n [ex_event] (Some (ex_uuid 6)) None []; OAddGrains n [ex_video] None None [];
   OAddGrains n [ex_audio; ex_event] None (Some 4) []; OAddGrains n [ex_audio] None (Some 1) []].

Lemma ex_logs_fit : Forall (grain_fits 8) ex_logs.
Proof.
  assert (forall l g, u16 l -> grain_ok g -> zlen (gbytes 8 (l, g)) < 4294967296 -> grain_fits 8 (l, g)) as H
    by (intros l g H1 H2 H3; split; [exact H1|split; [exact H2|exact H3]]).
  unfold ex_logs. repeat (constructor; [apply H; [unfold u16; lia|first [apply ex_video_ok|apply ex_audio_ok|apply ex_event_ok]|vm_compute; reflexivity]|]).
  constructor.
Qed.

Lemma ex_logs_sized : Forall (grain_sized 8) ex_logs.
Proof.
  repeat (constructor; [split; [reflexivity|]; split; [reflexivity|]; split; [reflexivity|]; split; [eexists; vm_compute; reflexivity|vm_compute; reflexivity]|]).
  constructor.
Qed.

Lemma ex_logs_encodable : Forall (encodable 8) ex_logs.
Proof. repeat (constructor; [eexists; vm_compute; reflexivity|]). constructor. Qed.

Lemma ex_lowest14 : lowest 1 [1; 4]. Proof. split; [left; reflexivity|repeat constructor; lia]. Qed.
Lemma ex_lowest1 : lowest 1 [1]. Proof. split; [left; reflexivity|repeat constructor; lia]. Qed.
Lemma ex_lowest4 : lowest 4 [4]. Proof. split; [left; reflexivity|repeat constructor; lia]. Qed.

Lemma ex_given sk st : GivenAll (keys_of (ex_enc sk st)) ex_adds ex_logs.
Proof.
  change ex_logs with (map (pair 4) [ex_event] ++ map (pair 1) [ex_video] ++ map (pair 4) [ex_audio; ex_event] ++ map (pair 1) [ex_audio] ++ []).
  apply GA_cons; [apply Gv_egrains; exact ex_lowest4|]. apply GA_cons; [apply Gv_egrains; exact ex_lowest14|].
  apply GA_cons; [apply Gv_sgrains; cbn; auto|]. apply GA_cons; [apply Gv_egrains; exact ex_lowest1|]. apply GA_nil.
Qed.

Lemma ex_async_given sk st n : GivenAll (keys_of (ex_enc sk st)) (ex_async_adds n) ex_logs.
Proof.
  change ex_logs with (map (pair 4) [ex_event] ++ map (pair 1) [ex_video] ++ map (pair 4) [ex_audio; ex_event] ++ map (pair 1) [ex_audio] ++ []).
  apply GA_cons; [apply Gv_ograins; exact ex_lowest4|]. apply GA_cons; [apply Gv_ograins; exact ex_lowest14|].
  apply GA_cons; [apply Gv_ograins; exact ex_lowest4|]. apply GA_cons; [apply Gv_ograins; exact ex_lowest1|]. apply GA_nil.
Qed.

Lemma ex_clients n : Forall (client n) ex_adds.
Proof. repeat constructor. Qed.

Lemma ex_async_clients n : Forall (async_client n) (ex_async_adds n).
Proof. repeat constructor. Qed.

Lemma reachable_run e ops : reachable e -> reachable (run_ops e ops).
Proof.
  intros (out & major & minor & id & created & streaming & ops0 & ->). exists out, major, minor, id, created, streaming, (ops0 ++ ops).
  generalize (new_encoder out major minor id created streaming). clear. induction ops0 as [|o ops0 IH]; intros e; [reflexivity|].
  cbn [run_ops app]. apply IH.
Qed.
