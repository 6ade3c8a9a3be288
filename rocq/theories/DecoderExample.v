(** Data for the examples about the decoder object. *)
From Coq Require Import Lia.
From Verif Require Import Base GsfPrim GsfBlock GsfBlockProofs GsfDecode GsfEncode GsfSpec GsfExamples GsfFileSpec Decoder DecoderSpec.

Lemma ex_file_complete : complete ex_file.
Proof.
  split; [exact ex_file_ok|].
  exists [PGrain 1 ex_video ex_video_payload ex_video_off; POther ex_extra;
          PGrain 2 ex_audio (ex_plain_payload 8 2 ex_audio) (ex_plain_off 8 2 ex_audio);
          PGrain 2 ex_event (ex_plain_payload 8 2 ex_event) (ex_plain_off 8 2 ex_event)].
  split; [reflexivity|]. repeat constructor.
Qed.
Lemma ex_file9_complete : complete ex_file9.
Proof.
  split; [exact ex_file9_ok|].
  exists [PGrain 2 ex_audio (ex_plain_payload 9 2 ex_audio) (ex_plain_off 9 2 ex_audio)]. split; [reflexivity|]. repeat constructor.
Qed.

(** A new decoder of a file. *)
Definition ex_dec (data : bytes) (concat : bool) : decoder := mkDecoder (Some (data, Some 0)) None concat.

(** The same file without its end marker. *)
Definition ex_open9 : gsf_file := with_pieces ex_file9 [PGrain 2 ex_audio (ex_plain_payload 9 2 ex_audio) (ex_plain_off 9 2 ex_audio)].
Lemma ex_open9_ok : gsf_ok ex_open9.
Proof.
  destruct ex_file9_ok as [H P]. split; [exact H|]. unfold ex_open9. cbn [with_pieces gf_major gf_pieces].
  inversion P; subst. apply Pc_grain; try assumption. apply Pc_nil.
Qed.

(** A file of version 6, of which there is no such thing. *)
Definition ex_six : list piece :=
  [PGrain 2 ex_audio (ex_plain_payload 6 2 ex_audio) (ex_plain_off 6 2 ex_audio); POther ex_extra;
   PGrain 3 ex_event (ex_plain_payload 6 3 ex_event) (ex_plain_off 6 3 ex_event); PEnd].
Lemma ex_six_ok : Pieces 6 ex_six.
Proof.
  apply Pc_grain; [unfold u16; lia|apply ex_audio_ok|vm_compute; reflexivity|apply ex_plain_payload_ok|].
  apply Pc_other; [apply ex_extra_unknown; cbn; intuition discriminate|vm_compute; reflexivity|].
  apply Pc_grain; [unfold u16; lia|apply ex_event_ok|vm_compute; reflexivity|apply ex_plain_payload_ok|].
  apply Pc_end, Pc_nil.
Qed.

Definition ex_locals (r : reply) : list Z := match r with Grains l _ => map i_local l | Groups _ l => map fst l | _ => [] end.
