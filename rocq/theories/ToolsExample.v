(** A template and the grains made of it, for the examples in PropsTools.v. *)
From Coq Require Import String Lia ZifyBool.
From Verif Require Import Base BaseProofs GsfPrim GsfDecode CogEnums GsfEncode GsfSpec GsfFileSpec GsfEncState GsfEncSpec GsfExamples PatternTime PatternSpec PyValue GrainObj GrainSetSpec EventExample Wrap WrapSpec GrainGsf GrainGsfSpec GrainGsfFileSpec GrainGsfExample Tools ToolsSpec.
Local Open Scope list_scope.

Lemma tx_made : made ob_video.
Proof. apply (made_video 5 ex_kw 0x2001 4 2 0 (ABytes [1; 2; 3; 4; 5; 6; 7; 8; 9; 10; 11; 12; 13; 14; 15; 16])). vm_compute. reflexivity. Qed.
Lemma tx_writable : writable ob_video (ob_grain ob_video).
Proof.
  split; [vm_compute; reflexivity|]. split; [vm_compute; reflexivity|]. split; [|discriminate].
  set (g := ob_grain ob_video). vm_compute in g. unfold grain_ok, g. cbn [g_src g_flow g_origin g_sync g_rate g_dur g_tils g_body g_len g_data opt_bytes].
  split; [apply ob_id; lia|]. split; [apply ob_id; lia|]. split; [ok|]. split; [ok|]. split; [ok|]. split; [ok|]. split; [ok|]. split; [ok|].
  split; [constructor|]. split; [ok|]. split; [|split; [reflexivity|apply ob_bytes; reflexivity]].
  cbn [gbody_ok]. unfold vmeta_ok. cbn [v_format v_layout v_width v_height v_ext v_sar v_par v_comps]. unfold ratio_ok, u32, u16. cbn.
  split; [reflexivity|]. split; [reflexivity|]. split; [lia|]. split; [lia|]. split; [lia|]. split; [exact I|]. split; [exact I|]. split; [|lia].
  constructor; [|constructor; [|constructor; [|constructor]]]; unfold comp_ok; cbn [co_width co_height co_stride co_offset co_length]; unfold u32; lia.
Qed.
(** Twenty bytes: a frame of 16 and one of 4. *)
Definition tx_input : bytes := [20; 21; 22; 23; 24; 25; 26; 27; 28; 29; 30; 31; 32; 33; 34; 35; 36; 37; 38; 39].
Definition tx_first (s : Z) (r : rate) : Z := to_count example_clock s (fst r) (snd r).
Definition tx_fresh : ofile := mkOut [] 0 true.
Definition tx_wrapped : yielded gobj := grain_wrapper example_clock tx_first src_read 9 ob_video (buffered tx_input) 30.
Definition tx_piped : yielded gobj := grain_wrapper example_clock tx_first pipe_read 9 ob_video (mkPipe [[20; 21]; [22; 23; 24; 25; 26; 27; 28; 29; 30; 31; 32; 33; 34; 35; 36; 37]; [38; 39]] 0) 30.
Definition tx_file (w : yielded gobj) : bytes := GsfEncState.o_data (fst (wrap_to_gsf (ex_uuid 9) ex_created ob_video w tx_fresh)).
(** A file with a grain of a segment that the header does not have. *)
Definition tx_stray : bytes := tx_file ([ob_coded], Some EEof) ++ gbytes 9 (7, ob_grain ob_video).

(** A grain of a type that does not exist. *)
Definition tx_unwritable : gobj := match GrainFactory 5 [($"grain", PDict [($"grain_type", PStr $"sound")])] (ABytes [1; 2]) with Ok o => o | Err _ => ob_empty end.
