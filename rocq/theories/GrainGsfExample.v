(** Grain objects for the examples in PropsGrainGsf.v. *)
From Coq Require Import String Lia ZifyBool.
From Verif Require Import Base BaseProofs GsfPrim GsfDecode CogEnums GsfEncode GsfSpec GsfFileSpec GsfEncState GsfExamples PyValue PyList Json GrainObj Event EventSpec Lists EventExample ListsExample GrainGsf GrainGsfSpec GrainGsfFileSpec.
Local Open Scope list_scope.

(** A timecode label with a frame rate that is not in lowest terms. *)
Definition ob_label : pv :=
  PDict [($"tag", PStr $"tc"); ($"timelabel", PDict [($"frames_since_midnight", PInt 90); ($"frame_rate_numerator", PInt 50); ($"frame_rate_denominator", PInt 2); ($"drop_frame", PBool false)])].
Definition ob_video : gobj := ex_or (kw_video 5 ex_kw 0x2001 4 2 0 (ABytes [1; 2; 3; 4; 5; 6; 7; 8; 9; 10; 11; 12; 13; 14; 15; 16])).
Definition ob_coded : gobj :=
  fst (do_ops Labels [LAppend ob_label] (ex_or (kw_coded_video 5 ex_kw 0x0202 16 16 None None (Some true) (Some 3) None 0 (Some [0; 2]) (ABytes [7; 8; 9])))).
Definition ob_event : gobj := fst (apply_ops ex_ops ex_event).
Definition ob_empty : gobj := ex_or (kw_factory 5 ex_kw ANone).
Definition ob_all : list gobj := [ob_video; ob_coded; ob_event; ob_empty].
(** Write them and read the file. *)
Definition ob_file : bytes :=
  match map_res read_grain ob_all with Ok gs => match GsfEncState.dumps gs (ex_uuid 5) [] 8 0 (ex_uuid 9) ex_created false with Ok b => b | Err _ => [] end | Err _ => [] end.
Definition ob_items (lazy : bool) : list item :=
  match decode_file (mkCfg None LoadDefer true true true lazy) (mkFile ob_file 0 false false) with Ok (_, (l, _, _)) => l | Err _ => [] end.
Definition ob_back (lazy : bool) : list (res gobj) := map (item_object 77 ob_file) (ob_items lazy).

(** They can be written. *)
Lemma ob_bytes (l : bytes) : forallb (fun c => (0 <=? c) && (c <? 256)) l = true -> bytes_ok l.
Proof. intros H. apply Forall_forall. intros c I. rewrite forallb_forall in H. specialize (H c I). cbv beta in H. unfold byte_ok. lia. Qed.
Lemma ob_chars (l : str) : forallb (fun c => (0 <=? c) && (c <? 0xd800) || (0xe000 <=? c) && (c <? 0x110000)) l = true -> Forall char_ok l.
Proof. intros H. apply Forall_forall. intros c I. rewrite forallb_forall in H. specialize (H c I). cbv beta in H. unfold char_ok. lia. Qed.
Definition ob_grain (o : gobj) : grain := match read_grain o with Ok g => g | Err _ => GsfExamples.ex_audio end.
Lemma ob_id n : 0 <= n < 256 -> uuid_ok [0; 0; 0; 0; 0; 0; 0; 0; 0; 0; 0; 0; 0; 0; 0; n].
Proof. intros H. split; [reflexivity|]. repeat constructor; lia. Qed.
Lemma ob_coded_writable : writable ob_coded (ob_grain ob_coded).
Proof.
  split; [vm_compute; reflexivity|]. split; [vm_compute; reflexivity|]. split; [|intros K; vm_compute in K; discriminate K].
  set (g := ob_grain ob_coded). vm_compute in g. unfold grain_ok, g. cbn [g_src g_flow g_origin g_sync g_rate g_dur g_tils g_body g_len g_data opt_bytes].
  split; [apply ob_id; lia|]. split; [apply ob_id; lia|]. split; [ok|]. split; [ok|]. split; [ok|]. split; [ok|]. split; [ok|]. split; [ok|].
  split. { constructor; [|constructor]. unfold til_ok. cbn [tl_tag tl_count tl_num tl_den]. split; [exact GsfExamples.ex_text|]. ok. }
  split; [ok|]. split; [|split; [reflexivity|apply ob_bytes; reflexivity]].
  cbn [gbody_ok]. unfold cmeta_ok. cbn. unfold u32, u16, i32. repeat split; try reflexivity; try lia; repeat (apply Forall_cons; [lia|]); apply Forall_nil.
Qed.
Definition ob_payload : EventSpec.payload :=
  mkP (PStr $"urn:x") (PStr [233; 0x1F600]) [upd nothing $"path" (Some (PStr $"/x")); upd (upd (upd nothing $"pre" (Some (PBool false))) $"post" (Some (PList [PNone]))) $"path" (Some (PStr $"/y"))].
Lemma ob_event_good : good_event ob_event ob_payload.
Proof.
  split; [|split].
  - eexists _, _, _. split; [vm_compute; reflexivity|]. split; [vm_compute; reflexivity|]. split; [reflexivity|]. split; [reflexivity|]. split; [reflexivity|].
    constructor; [|constructor; [|constructor]].
    + eexists. split; [reflexivity|]. split; [repeat constructor; cbn; intuition discriminate|]. intros k. unfold upd, nothing. cbn [dget]. reflexivity.
    + eexists. split; [reflexivity|]. split; [repeat constructor; cbn; intuition discriminate|]. intros k. unfold upd, nothing. cbn [dget].
      change [112; 97; 116; 104] with ($"path"). change [112; 111; 115; 116] with ($"post"). change [112; 114; 101] with ($"pre").
      destruct (zlist_eqb k $"path"); [reflexivity|]. destruct (zlist_eqb k $"post"); reflexivity.
  - split; [apply jok_str, ob_chars; reflexivity|]. split; [apply jok_str, ob_chars; reflexivity|]. constructor; [|constructor; [|constructor]]; intros k v E; unfold upd, nothing in E.
    + destruct (zlist_eqb k $"path") eqn:X; [|discriminate]. apply zlist_eqb_eq in X. subst k. injection E as <-. split; [apply ob_chars; reflexivity|]. apply jok_str, ob_chars. reflexivity.
    + destruct (zlist_eqb k $"path") eqn:X; [|destruct (zlist_eqb k $"post") eqn:Y; [|destruct (zlist_eqb k $"pre") eqn:Z; [|discriminate]]].
      * apply zlist_eqb_eq in X. subst k. injection E as <-. split; [apply ob_chars; reflexivity|]. apply jok_str, ob_chars. reflexivity.
      * apply zlist_eqb_eq in Y. subst k. injection E as <-. split; [apply ob_chars; reflexivity|]. apply jok_list. constructor; [constructor|constructor].
      * apply zlist_eqb_eq in Z. subst k. injection E as <-. split; [apply ob_chars; reflexivity|]. apply jok_bool.
  - constructor; [|constructor; [|constructor]]; vm_compute; discriminate.
Qed.
Lemma ob_event_writable : writable ob_event (ob_grain ob_event).
Proof.
  split; [vm_compute; reflexivity|]. split; [vm_compute; reflexivity|]. split; [|intros _; exists ob_payload; exact ob_event_good].
  set (g := ob_grain ob_event). vm_compute in g. unfold grain_ok, g. cbn [g_src g_flow g_origin g_sync g_rate g_dur g_tils g_body g_len g_data opt_bytes].
  split; [apply ob_id; lia|]. split; [apply ob_id; lia|]. split; [ok|]. split; [ok|]. split; [ok|]. split; [ok|]. split; [ok|]. split; [ok|].
  split; [constructor|]. split; [ok|]. split; [exact I|]. split; [reflexivity|apply ob_bytes; reflexivity].
Qed.
