(** Concrete grains and files used in the examples beside the theorems. *)
From Verif Require Import Base BaseProofs Utf8 Utf8Proofs GsfPrim GsfPrimProofs GsfBlock GsfBlockProofs GsfDecode
  CogEnums GsfEncode GsfSpec GsfCodecProofs GsfEncodeProofs GsfFileSpec.
From Coq Require Import ZifyBool ZifyNat.

Definition ex_uuid (n : Z) : bytes := [n; 1; 2; 3; 4; 5; 6; 7; 8; 9; 10; 11; 12; 13; 14; 255].

(** A video grain with a time label and three components; its data is ten bytes. *)
Definition ex_video : grain :=
  mkGrain (ex_uuid 1) (ex_uuid 2) 1500000000 (-7) (25, 1) (1, 25)
    [mkTil [116; 99] 42 30000 1001 true]
    (BVideo (mkV 8193 0 4 2 0 (Some (16, 9)) None
               [mkComp 4 2 4 0 8; mkComp 2 1 2 8 2; mkComp 2 1 2 10 2]))
    10 (Some [1; 2; 3; 4; 5; 6; 7; 8; 9; 10]).

(** An audio grain and an event grain without data. *)
Definition ex_audio : grain :=
  mkGrain (ex_uuid 1) (ex_uuid 3) 20 20 (48000, 1) (1, 48000) [] (BAudio (mkA 0 2 3 48000)) 6 (Some [9; 8; 7; 6; 5; 4]).
Definition ex_event : grain :=
  mkGrain (ex_uuid 1) (ex_uuid 4) 30 31 (0, 1) (0, 1) [] BEvent 0 None.

Lemma ex_text : text_fits 16 [116; 99].
Proof.
  split; [repeat constructor; unfold scalar; lia|]. split; [split; discriminate|]. vm_compute. discriminate.
Qed.

Ltac ok := unfold uuid_ok, bytes_ok, ts_fits, rat_ok, rat_fits, u16, u32, i32, GIGA; cbn;
  repeat match goal with
         | |- _ /\ _ => split
         | |- Forall _ _ => constructor
         end; try reflexivity; try lia.

Lemma ex_uuid_ok n : 0 <= n < 256 -> uuid_ok (ex_uuid n).
Proof. intros H. split; [reflexivity|]. repeat constructor; lia. Qed.

Lemma ex_video_ok : grain_ok ex_video.
Proof.
  unfold grain_ok, ex_video. cbn [g_src g_flow g_origin g_sync g_rate g_dur g_tils g_body g_len g_data opt_bytes].
  split; [apply ex_uuid_ok; lia|]. split; [apply ex_uuid_ok; lia|].
  split; [ok|]. split; [ok|]. split; [ok|]. split; [ok|]. split; [ok|]. split; [ok|].
  split. { constructor; [|constructor]. unfold til_ok. cbn [tl_tag tl_count tl_num tl_den]. split; [apply ex_text|]. ok. }
  split; [ok|]. split.
  { cbn [gbody_ok]. unfold vmeta_ok. cbn [v_format v_layout v_width v_height v_ext v_sar v_par v_comps].
    split; [reflexivity|]. split; [reflexivity|]. split; [ok|]. split; [ok|]. split; [ok|].
    split; [cbn; ok|]. split; [exact I|]. split; [|ok]. unfold comp_ok. repeat constructor; cbn; lia. }
  split; [reflexivity|]. repeat constructor; lia.
Qed.

Lemma ex_audio_ok : grain_ok ex_audio.
Proof.
  unfold grain_ok, ex_audio. cbn [g_src g_flow g_origin g_sync g_rate g_dur g_tils g_body g_len g_data opt_bytes].
  split; [apply ex_uuid_ok; lia|]. split; [apply ex_uuid_ok; lia|].
  split; [ok|]. split; [ok|]. split; [ok|]. split; [ok|]. split; [ok|]. split; [ok|].
  split; [constructor|]. split; [ok|]. split; [cbn [gbody_ok]; unfold ameta_ok; ok|].
  split; [reflexivity|]. repeat constructor; lia.
Qed.

Lemma ex_event_ok : grain_ok ex_event.
Proof.
  unfold grain_ok, ex_event. cbn [g_src g_flow g_origin g_sync g_rate g_dur g_tils g_body g_len g_data opt_bytes].
  split; [apply ex_uuid_ok; lia|]. split; [apply ex_uuid_ok; lia|].
  split; [ok|]. split; [ok|]. split; [ok|]. split; [ok|]. split; [ok|]. split; [ok|].
  split; [constructor|]. split; [ok|]. split; [exact I|].
  split; [reflexivity|]. constructor.
Qed.

(** An unknown block and a file that contains it at top level, before the head block and inside a grain. *)
Definition ex_extra : block := ([120; 121; 122; 122], [103; 114; 97; 105]).

Lemma ex_extra_unknown l : ~ In [120; 121; 122; 122] l -> unknown_in l ex_extra.
Proof.
  intros H. exists [120; 121; 122; 122]. split; [|exact H]. split; [reflexivity|]. split; [|discriminate].
  exists [120; 121; 122; 122]. split; reflexivity.
Qed.

Definition ex_gb : bytes :=
  gbhd_fixed 8 ex_video ++ blocks (ex_extra :: tils_children (g_tils ex_video) ++ body_children (g_body ex_video)).
Definition ex_video_payload : bytes :=
  enc_uint 2 1 ++ enc_block T_gbhd ex_gb ++ blocks [ex_extra] ++ enc_block T_grdt (opt_bytes (g_data ex_video)) ++ [7; 7].
Definition ex_video_off : Z := 2 + zlen (enc_block T_gbhd ex_gb) + zlen (blocks [ex_extra]) + 8.

Lemma ex_video_payload_ok : GraiPayload 8 1 ex_video ex_video_payload ex_video_off.
Proof.
  unfold ex_video_payload, ex_video_off. constructor.
  - unfold ex_gb. econstructor; [apply body_children_BB|]. apply IL_extra; [|apply Interleave_refl].
    apply ex_extra_unknown. unfold gbhd_known. cbn. intuition discriminate.
  - constructor; [|constructor]. apply ex_extra_unknown. cbn. intuition discriminate.
Qed.

Definition ex_plain_payload (major local : Z) (g : grain) : bytes :=
  enc_uint 2 local ++ enc_block T_gbhd (gbhd_fixed major g ++ blocks (tils_children (g_tils g) ++ body_children (g_body g))) ++
  enc_block T_grdt (opt_bytes (g_data g)).
Definition ex_plain_off (major local : Z) (g : grain) : Z :=
  2 + zlen (enc_block T_gbhd (gbhd_fixed major g ++ blocks (tils_children (g_tils g) ++ body_children (g_body g)))) + 0 + 8.

Lemma ex_plain_payload_ok major local g : GraiPayload major local g (ex_plain_payload major local g) (ex_plain_off major local g).
Proof.
  unfold ex_plain_payload, ex_plain_off.
  pose proof (GR_intro major local g
    (gbhd_fixed major g ++ blocks (tils_children (g_tils g) ++ body_children (g_body g))) [] []) as H.
  cbn [blocks flat_map app] in H. rewrite app_nil_r in H. apply H; [|constructor].
  econstructor; [apply body_children_BB|apply Interleave_refl].
Qed.

Definition ex_created : datetime := mkDT 2024 2 29 23 59 59.
Definition ex_seg1 : eseg := mkESeg 1 (ex_uuid 5) None [([107], [118])].
Definition ex_seg2 : eseg := mkESeg 2 (ex_uuid 6) (Some (mkEFlow (ex_uuid 1) (ex_uuid 3) [97] [123; 125])) [].
Definition ex_head_payload : bytes :=
  enc_uuid (ex_uuid 9) ++ enc_datetime ex_created ++
  blocks (map segm_block [(ex_seg1, 1); (ex_seg2, 2)] ++ map tag_block [([116], [120; 233])]).
Definition ex_head : head :=
  mkHead (ex_uuid 9) ex_created
    [mkSegm 1 (ex_uuid 5) 1 None [([107], [118])];
     mkSegm 2 (ex_uuid 6) 2 (Some (mkFlow (ex_uuid 1) (ex_uuid 3) [97] [123; 125])) []]
    [([116], [120; 233])].

Lemma small_text n l : Forall (fun c => 0 < c < 128) l -> zlen l <= n -> text_fits n l.
Proof.
  intros HF HL. assert (utf8_enc l = l) as E.
  { clear HL. induction HF as [|c l Hc Hl IH]; [reflexivity|]. change (utf8_enc (c :: l)) with (utf8_enc1 c ++ utf8_enc l).
    rewrite IH. unfold utf8_enc1. replace (c <? 128) with true by lia. reflexivity. }
  split; [|split].
  - unfold str_ok. eapply Forall_impl; [|exact HF]. intros c Hc. cbv beta in *. unfold scalar. lia.
  - split.
    + destruct HF; cbn; lia.
    + clear - HF. induction HF as [|c l Hc Hl IH]; [cbn; lia|]. destruct l; [cbn; lia|exact IH].
  - rewrite E. exact HL.
Qed.

Ltac small := repeat (apply Forall_cons; [unfold scalar; lia|]); apply Forall_nil.
Lemma ex_head_ok : HeadPayload (ex_uuid 9) ex_created [(ex_seg1, 1); (ex_seg2, 2)] [([116], [120; 233])] ex_head_payload ex_head.
Proof.
  unfold ex_head_payload, ex_head.
  eapply HP_intro with (bl := map segm_block [(ex_seg1, 1); (ex_seg2, 2)]); try reflexivity.
  - apply ex_uuid_ok; lia.
  - constructor; [|constructor]. split; cbn [fst snd].
    + apply small_text; [small|vm_compute; discriminate].
    + split; [small|]. split; [split; discriminate|vm_compute; discriminate].
  - cbn [map]. unfold segm_block. cbn [fst snd].
    constructor; [|constructor; [|constructor]].
    + unfold segm_fixed, segm_children. rewrite <- !app_assoc. apply SP_intro; cbn [ex_seg1 es_local es_id es_tags es_flow].
      * unfold u16; lia.
      * apply ex_uuid_ok; lia.
      * unfold i64; lia.
      * apply Forall_cons; [|apply Forall_nil]. split; cbn [fst snd]; (apply small_text; [small|vm_compute; discriminate]).
      * constructor.
      * apply Interleave_refl.
    + unfold segm_fixed, segm_children. rewrite <- !app_assoc. apply SP_intro; cbn [ex_seg2 es_local es_id es_tags es_flow].
      * unfold u16; lia.
      * apply ex_uuid_ok; lia.
      * unfold i64; lia.
      * apply Forall_nil.
      * constructor. unfold flow_fits. cbn [ef_src ef_flow ef_format ef_data].
        split; [apply ex_uuid_ok; lia|]. split; [apply ex_uuid_ok; lia|]. split; [|reflexivity].
        apply small_text; [small|vm_compute; discriminate].
      * apply Interleave_refl.
  - apply Interleave_refl.
Qed.

(** A version 8 file: header with an unknown block in front of the head, a video grain with unknown blocks inside, an
    unknown block, an audio grain of segment 2, an event grain, the terminator. *)
Definition ex_file : gsf_file :=
  mkGsf 8 0 [ex_extra] ex_head_payload ex_head
    [PGrain 1 ex_video ex_video_payload ex_video_off;
     POther ex_extra;
     PGrain 2 ex_audio (ex_plain_payload 8 2 ex_audio) (ex_plain_off 8 2 ex_audio);
     PGrain 2 ex_event (ex_plain_payload 8 2 ex_event) (ex_plain_off 8 2 ex_event);
     PEnd].

Lemma ex_file_ok : gsf_ok ex_file.
Proof.
  split.
  - unfold header_ok, ex_file. cbn [gf_major gf_minor gf_pre gf_head_payload gf_head].
    split; [auto|]. split; [unfold u16; lia|]. split.
    { constructor; [|constructor]. apply ex_extra_unknown. cbn. intuition discriminate. }
    split; [constructor; [vm_compute; reflexivity|constructor]|]. split; [vm_compute; reflexivity|].
    eexists _, _, _, _. apply ex_head_ok.
  - unfold ex_file. cbn [gf_major gf_pieces].
    apply Pc_grain; [unfold u16; lia|apply ex_video_ok|vm_compute; reflexivity|apply ex_video_payload_ok|].
    apply Pc_other; [apply ex_extra_unknown; cbn; intuition discriminate|vm_compute; reflexivity|].
    apply Pc_grain; [unfold u16; lia|apply ex_audio_ok|vm_compute; reflexivity|apply ex_plain_payload_ok|].
    apply Pc_grain; [unfold u16; lia|apply ex_event_ok|vm_compute; reflexivity|apply ex_plain_payload_ok|].
    apply Pc_end, Pc_nil.
Qed.

(** The plain version 9 file with the same segments and an audio grain. *)
Definition ex_file9 : gsf_file :=
  mkGsf 9 0 [] ex_head_payload ex_head
    [PGrain 2 ex_audio (ex_plain_payload 9 2 ex_audio) (ex_plain_off 9 2 ex_audio); PEnd].

Lemma ex_file9_ok : gsf_ok ex_file9.
Proof.
  split.
  - unfold header_ok, ex_file9. cbn [gf_major gf_minor gf_pre gf_head_payload gf_head].
    split; [auto|]. split; [unfold u16; lia|]. split; [constructor|]. split; [constructor|].
    split; [vm_compute; reflexivity|]. eexists _, _, _, _. apply ex_head_ok.
  - unfold ex_file9. cbn [gf_major gf_pieces].
    apply Pc_grain; [unfold u16; lia|apply ex_audio_ok|vm_compute; reflexivity|apply ex_plain_payload_ok|].
    apply Pc_end, Pc_nil.
Qed.

Definition ex_cfg : cfg := mkCfg None LoadImmediately true true false false.
Definition ex_in (data : bytes) : file := mkFile data 0 false false.
