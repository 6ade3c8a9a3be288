(** Creation times through a file. *)
From Coq Require Import Lia ZifyBool ZifyNat.
From Verif Require Import Base BaseProofs Utf8 GsfPrim GsfPrimProofs GsfBlock GsfBlockProofs GsfDecode CogEnums GsfEncode GsfSpec GsfPrimFacts GsfCodecProofs GsfEncodeProofs GsfFileSpec
  GsfEncState GsfEncSpec GsfEncDecodeSpec GsfGroup GsfDumps Utc UtcSpec UtcProofs.
Local Open Scope list_scope.

(** dumps with created=[m], gsf.py 171-187; [None] is OverflowError. *)
Definition dumps_created (gs : list grain) (seg_id : bytes) (segment_tags : list (str * str)) (major minor : Z) (id : bytes) (m : moment) : option (res bytes) :=
  option_map (fun created => dumps gs seg_id segment_tags major minor id created false) (created_time m).

Lemma head_size id c1 c2 segs tags : zlen id = 16 -> Forall (fun sc => eseg_uuids (fst sc)) segs -> zlen (enc_head id c1 segs tags) = zlen (enc_head id c2 segs tags).
Proof.
  intros I S. rewrite !enc_head_block by assumption. rewrite !enc_block_len by reflexivity. rewrite !zlen_app, !enc_datetime_len. reflexivity.
Qed.
Lemma created_saved gs seg_id stags major minor id m :
  (major = 7 \/ major = 8 \/ major = 9) -> u16 minor -> uuid_ok id -> moment_ok m ->
  uuid_ok seg_id -> Forall tag_fits stags -> i64 (zlen gs) ->
  zlen (enc_head id (mo_at m) [(mkESeg 1 seg_id None stags, 0)] []) < 4294967296 ->
  Forall (grain_fits major) (map (pair 1) gs) -> gs <> [] ->
  (dumps_created gs seg_id stags major minor id m = None <-> ensure_utc m = None) /\
  forall r, dumps_created gs seg_id stags major minor id m = Some r -> exists data h d t s, r = Ok data /\ loads data = Ok (h, d) /\
    instant m t /\ instant (utc (hd_created h)) (s * 1000000) /\ s * 1000000 <= t < (s + 1) * 1000000.
Proof.
  intros V N I M SI T L HS F NE. split.
  - unfold dumps_created, created_time. destruct (ensure_utc m) as [u|] eqn:U; [|tauto]. rewrite (utc_again m u M U). cbn [option_map]. split; intros H; discriminate H.
  - intros r H. unfold dumps_created in H. destruct (created_time m) as [c|] eqn:C; [|discriminate H]. cbn [option_map] in H. injection H as <-.
    destruct (created_seconds m c M C) as [D K]. destruct (one_instant m (proj1 M)) as [t J]. destruct (K t J) as (s & S1 & S2).
    assert (HS' : zlen (enc_head id c [(mkESeg 1 seg_id None stags, 0)] []) < 4294967296).
    { rewrite (head_size id c (mo_at m)); [exact HS|apply I|]. constructor; [|constructor]. split; [apply SI|exact Logic.I]. }
    destruct (dumps_loads gs seg_id stags major minor id c V N I (proj2 (dates c) D) SI T L HS' F NE) as (data & d & E & LD & _).
    exists data, (mkHead id c [mkSegm 1 seg_id (zlen gs) None stags] []), d, t, s. split; [exact E|]. split; [exact LD|]. split; [exact J|]. split; [exact S1|exact S2].
Qed.
