(** What the peak signal to noise ratio does not do. *)
From Coq Require Import String Lia ZifyBool ZifyNat.
From Verif Require Import Base BaseProofs GsfPrim CogEnums VideoLayout LayoutSpec PatternSpec JsonProofs PyValue GrainObj BuildSpec BuildMain GrainCopy GrainCopySpec GrainGsf
  NpView NpSpec NpAudio NpAudioSpec Psnr PsnrSpec PsnrProofs PsnrMain PsnrAudio PsnrMade PsnrExample.
Local Open Scope list_scope.

Theorem twice_refuted : ~ (forall now a b s c d d', audio_of a 4 s c d -> audio_of b 4 s c d' ->
  let '(a', b', v) := compute_psnr now true true None a b in snd (compute_psnr now true true None a' b') = v).
Proof.
  intros H. assert (X : forall d, zlen d = 4 -> bytes_ok d -> audio_of (ex_audio 4 1 1 d) 4 1 1 d).
  { intros d L B. destruct (proj2 (BuildKw.audio_kw_total 5 ex_psnr_kw 4 1 1 48000 (ABytes d)) ltac:(discriminate)) as [o E].
    unfold ex_audio. rewrite E. exact (made_audio 5 ex_psnr_kw 4 1 1 48000 d o eq_refl E L B). }
  assert (B : forall x y, 0 <= x < 256 -> 0 <= y < 256 -> bytes_ok [x; 0; y; 0]) by (intros x y P Q; repeat constructor; unfold byte_ok; lia).
  specialize (H 9 (ex_audio 4 1 1 [0; 0; 1; 0]) (ex_audio 4 1 1 [0; 0; 0; 0]) 1 1 [0; 0; 1; 0] [0; 0; 0; 0] (X [0; 0; 1; 0] eq_refl (B 0 1 ltac:(lia) ltac:(lia))) (X [0; 0; 0; 0] eq_refl (B 0 0 ltac:(lia) ltac:(lia)))).
  vm_compute in H. discriminate H.
Qed.
Theorem v210_refuted now rwa rwb max w h d d' a b : video_of a v210 w h d -> video_of b v210 w h d' -> 0 <= w -> 0 <= h -> compute_psnr now rwa rwb max a b = (a, b, Ok []).
Proof.
  assert (X : forall o d, video_of o v210 w h d -> 0 <= w -> 0 <= h -> numpy_video now o = Ok (mkNv v210 4 d [])).
  { clear. intros o d [C F T FM WD HT CO D L] W H. assert (NB : forall x, not_bytes KVideo x) by (intros x; exact Logic.I).
    destruct F as [_ F]. rewrite C in F. specialize (F now). pose proof (init_again KVideo now now (o_meta o) ANone (ABytes d) _ (NB _) (NB _) F) as E. cbn [o_meta] in E.
    unfold numpy_video. rewrite C, D. cbn [rbind arg_of_data]. rewrite E. cbn [rbind]. set (n := mk KVideo (o_meta o) (ABytes d)).
    assert (GD : get_data n = Ok (Some d)) by reflexivity. rewrite GD. cbn [rbind].
    assert (GF : attr to_int $"cog_frame_format" n = Ok v210).
    { unfold attr. replace (getattr n $"cog_frame_format") with (getattr o $"cog_frame_format"); [rewrite FM; reflexivity|]. clear - C. destruct o as [c m x y]. cbn [o_class] in C. subst c. reflexivity. }
    assert (GC : components n = Ok (map comp_dict (components_for_format v210 w h))).
    { unfold components. change (o_class n) with KVideo. cbv iota. replace (in_section $"cog_frame" $"components" n) with (in_section $"cog_frame" $"components" o); [rewrite CO; reflexivity|].
      clear - C. destruct o as [c m x y]. reflexivity. }
    rewrite GF. cbn [rbind]. change (np_itemsize v210) with (Ok 4 : res Z). cbn [rbind].
    assert (G : exists c, components_for_format v210 w h = [c] /\ vc_stride c mod 4 = 0 /\ size_for_format v210 w h mod 4 = 0).
    { exists (mkVc ((w + 47) / 48 * 128) 0 w h (h * ((w + 47) / 48 * 128))). split; [reflexivity|]. change (size_for_format v210 w h) with (h * ((w + 47) / 48 * 128)). cbn [vc_stride]. set (q := (w + 47) / 48). clearbody q.
      split; [replace (q * 128) with (q * 32 * 4) by ring|replace (h * (q * 128)) with (h * q * 32 * 4) by ring]; apply Z.mod_mul; lia. }
    destruct G as (c & EC & SC & SZ). rewrite L, SZ. cbn [Z.eqb negb]. rewrite GC. cbn [rbind]. rewrite read_comps. cbn [rbind]. rewrite EC. cbn [forallb]. rewrite SC. reflexivity. }
  intros VA VB W H. pose proof (X a d VA W H) as NA. pose proof (X b d' VB W H) as NB'. destruct VA as [CA _ TA FA WA HA _ _ _], VB as [CB _ TB FB WB HB _ _ _].
  unfold compute_psnr. rewrite TA, TB. cbn [rbind]. replace (py_eq (PStr $"video") (PStr $"video")) with true by reflexivity. cbn [negb]. replace (type_is (PStr $"video") $"video") with true by reflexivity.
  unfold video_psnr. rewrite WA, WB, HA, HB. cbn [rbind]. rewrite !py_int. cbn [negb]. unfold attr at 1. rewrite FA. cbn [rbind to_int]. change (IS_COMPRESSED v210) with false. cbv iota. rewrite NA, NB'. reflexivity.
Qed.
Theorem limits_refuted :
  ratio (compute_psnr 9 true true None (ex_video RGB 1 1 [1; 2; 3]) (ex_video BGRx 1 1 [3; 2; 1; 0])) = Ok [PvLog 65025 4; PvInf; PvLog 65025 4] /\
  (forall n, In n [CR; CG; CB] -> sample (shown RGB 1 1 [1; 2; 3]) n 0 0 = sample (shown BGRx 1 1 [3; 2; 1; 0]) n 0 0) /\
  ratio (compute_psnr 9 true true None (ex_video RGBA 1 1 [1; 2; 3; 4]) (ex_video RGBA 1 1 [1; 2; 3; 200])) = Ok [PvInf; PvInf; PvInf] /\
  ratio (compute_psnr 9 true true None (ex_video U8_444 1 1 [0; 0; 0]) (ex_video S16_444_10BIT 1 1 [1; 0; 0; 0; 0; 0])) = Ok [PvLog 65025 1; PvInf; PvInf] /\
  ratio (compute_psnr 9 true true None (ex_video S16_444_10BIT 1 1 [1; 0; 0; 0; 0; 0]) (ex_video U8_444 1 1 [0; 0; 0])) = Ok [PvLog 1046529 1; PvInf; PvInf] /\
  ratio (compute_psnr 9 true true None (ex_video U8_444 4 1 (zeros 12)) (ex_video U8_422 4 1 (zeros 8))) = Err EValue /\
  ratio (compute_psnr 9 true true None (ex_audio 0xc 1 1 (zeros 8)) (ex_audio 0xc 1 1 (repeat 1 8))) = Err EType /\
  ratio (compute_psnr 9 true true None (ex_audio 0x1a 1 1 [0; 0; 128; 127]) (ex_audio 0x1a 1 1 [0; 0; 0; 63])) = Err EValue.
Proof.
  split; [vm_compute; reflexivity|]. split; [intros n [<-|[<-|[<-|[]]]]; vm_compute; reflexivity|]. repeat (split; [vm_compute; reflexivity|]). vm_compute. reflexivity.
Qed.
