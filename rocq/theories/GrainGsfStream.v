(** Grain objects sent to an encoder that writes progressively. *)
From Coq Require Import String Lia.
From Verif Require Import Base BaseProofs GsfPrim GsfBlock GsfDecode CogEnums GsfEncode GsfSpec GsfFileSpec GsfEncState GsfEncSpec GsfEncFile GsfEncDecodeSpec GsfEncFacts
  PyValue GrainObj GrainGsf GrainGsfSpec GrainGsfFileSpec GrainGsfFile.
Local Open Scope list_scope.

Theorem objects_streamed e async o c ops lgs los : streams e async o c -> (async = false -> from_encoder e) ->
  Forall (client_of async (length (e_sess e))) ops -> SentAll (e_major e) (keys_of e) (length (e_sess e)) ops lgs ->
  prior (e_out e) = [] -> head_fits e -> Forall (fun s => i64 (final_count (o_seek (e_out e)) lgs s)) (e_segs e) ->
  Forall (grain_fits (e_major e)) lgs -> waiting (e_segs e) = [] -> all_writable los lgs ->
  forall k strict fwd, at_once k ->
  let data := GsfEncState.o_data (e_out (run_ops e (o :: ops ++ [c]))) in
  exists s l, decode_file k (mkFile data 0 strict fwd) = Ok (s, (l, s, Done)) /\
    Forall2 (fun lo i => i_local i = fst lo /\ comes_back (e_major e) data (snd lo) i) (asked (k_ids k) los) l.
Proof.
  intros H1 H2 H3 H4 H5 H6 H7 H8 H9 W k strict fwd A data.
  pose proof (stream_roundtrip e async o c ops lgs H1 H2 H3 H4 H5 H6 H7) as R. rewrite H9 in R. cbn [app] in R.
  exact (objects_back e _ los lgs data k strict fwd (R H8) W A).
Qed.

(** A grain of any other type is never written. *)
Theorem unknown_type o v : getattr o $"grain_type" = Ok v ->
  (forall t, In t [$"video"; $"coded_video"; $"audio"; $"coded_audio"; $"event"; $"empty"] -> v <> PStr t) -> exists x, read_grain o = Err x.
Proof.
  intros T N. assert (B : read_body o = Err EEncode).
  { unfold read_body. rewrite T. cbn [rbind].
    assert (K : forall t, In t [$"video"; $"coded_video"; $"audio"; $"coded_audio"; $"event"; $"empty"] -> type_is v t = false).
    { intros t I. specialize (N t I). clear - N. destruct v; try reflexivity. unfold type_is. apply not_true_is_false. intros E. apply zlist_eqb_eq in E. congruence. }
    rewrite !K by (cbn [In]; tauto). reflexivity. }
  unfold read_grain. rewrite B. cbn [rbind].
  repeat (match goal with |- exists x, rbind ?r _ = Err x => destruct r; [cbn [rbind]|eexists; reflexivity] end). eexists; reflexivity.
Qed.
