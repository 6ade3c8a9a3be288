(** C76: creation times. *)
From Coq Require Import Lia.
From Verif Require Import Base Utf8 GsfPrim GsfDecode GsfEncode GsfSpec GsfFileSpec GsfEncState GsfEncSpec GsfEncDecodeSpec GsfGroup GsfExamples Utc UtcSpec UtcProofs UtcFile.
Local Open Scope list_scope.

(** A time that is given with an offset is turned into the time of UTC of the same instant; there is only one. *)
Theorem C76_same : forall m u, moment_ok m -> ensure_utc m = Some u ->
  moment_ok u /\ mo_offset u = Some 0 /\ (exists t, instant m t /\ instant u t) /\
  forall v t, moment_ok v -> mo_offset v = Some 0 -> instant m t -> instant v t -> v = u.
Proof. exact utc_only. Qed.
Print Assumptions C76_same.
Example C76_same_ex : ensure_utc (mkMoment (mkDT 2024 3 1 0 30 15) 250000 (Some 3600000000)) = Some (mkMoment (mkDT 2024 2 29 23 30 15) 250000 (Some 0)) /\
  ensure_utc (mkMoment (mkDT 1999 12 31 19 0 0) 0 (Some (-18000000000))) = Some (mkMoment (mkDT 2000 1 1 0 0 0) 0 (Some 0)) /\
  ensure_utc (mkMoment (mkDT 2023 2 28 23 59 59) 999999 (Some (-1))) = Some (mkMoment (mkDT 2023 3 1 0 0 0) 0 (Some 0)) /\
  ensure_utc (mkMoment (mkDT 2024 2 29 12 0 0) 5 None) = Some (mkMoment (mkDT 2024 2 29 12 0 0) 5 (Some 0)).
Proof. vm_compute. repeat split. Qed.

(** It raises exactly if no time of UTC, of the years 1 to 9999, is at that instant. *)
Theorem C76_overflow : forall m, moment_ok m -> ensure_utc m = None <-> forall u t, moment_ok u -> mo_offset u = Some 0 -> instant m t -> ~ instant u t.
Proof. exact utc_overflow. Qed.
Print Assumptions C76_overflow.
Example C76_overflow_ex : ensure_utc (mkMoment (mkDT 1 1 1 0 30 0) 0 (Some 3600000000)) = None /\ ensure_utc (mkMoment (mkDT 9999 12 31 23 30 0) 0 (Some (-3600000000))) = None /\
  ensure_utc (mkMoment (mkDT 9999 12 31 23 30 0) 0 (Some 3600000000)) = Some (mkMoment (mkDT 9999 12 31 22 30 0) 0 (Some 0)).
Proof. vm_compute. repeat split. Qed.

(** Doing it again, as the encoder does, changes nothing. *)
Theorem C76_again : forall m u, moment_ok m -> ensure_utc m = Some u -> ensure_utc u = Some u.
Proof. exact utc_again. Qed.
Print Assumptions C76_again.
Example C76_again_ex : ensure_utc (mkMoment (mkDT 1900 2 28 23 30 0) 7 (Some (-7200000000))) = Some (mkMoment (mkDT 1900 3 1 1 30 0) 7 (Some 0)) /\
  ensure_utc (mkMoment (mkDT 1900 3 1 1 30 0) 7 (Some 0)) = Some (mkMoment (mkDT 1900 3 1 1 30 0) 7 (Some 0)).
Proof. vm_compute. split; reflexivity. Qed.

(** The creation time read from a file is the second in which the instant given is. *)
Theorem C76_saved : forall gs seg_id stags major minor id m,
  (major = 7 \/ major = 8 \/ major = 9) -> u16 minor -> uuid_ok id -> moment_ok m ->
  uuid_ok seg_id -> Forall tag_fits stags -> i64 (zlen gs) ->
  zlen (enc_head id (mo_at m) [(mkESeg 1 seg_id None stags, 0)] []) < 4294967296 ->
  Forall (grain_fits major) (map (pair 1) gs) -> gs <> [] ->
  (dumps_created gs seg_id stags major minor id m = None <-> ensure_utc m = None) /\
  forall r, dumps_created gs seg_id stags major minor id m = Some r -> exists data h d t s, r = Ok data /\ loads data = Ok (h, d) /\
    instant m t /\ instant (utc (hd_created h)) (s * 1000000) /\ s * 1000000 <= t < (s + 1) * 1000000.
Proof. exact created_saved. Qed.
Print Assumptions C76_saved.
Example C76_saved_ex :
  match dumps_created [ex_video; ex_audio] (ex_uuid 5) [([107], [118])] 8 0 (ex_uuid 9) (mkMoment (mkDT 2024 3 1 0 30 15) 250000 (Some 3600000000)) with
  | Some (Ok data) => match loads data with Ok (h, _) => hd_created h = mkDT 2024 2 29 23 30 15 | Err _ => False end
  | _ => False
  end.
Proof. vm_compute. reflexivity. Qed.
