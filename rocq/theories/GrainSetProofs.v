(** Assignments seen as writes to places in the metadata. *)
From Coq Require Import String Lia ZifyBool.
From Verif Require Import Base BaseProofs PyValue PyValueProofs JsonProofs CogEnums GrainObj BuildKw GrainSet GrainSetSpec.
Local Open Scope list_scope.

(** A place is a part and a key; an attribute reads what is there, and writes a value there or takes it away. *)
Record slot := mkSlot { sl_part : option str; sl_key : str; sl_read : option pv -> res pv; sl_write : pv -> res (option pv) }.
Definition need (f : pv -> res pv) (x : option pv) : res pv := match x with Some v => f v | None => Err EKey end.
Definition always (f : pv -> res pv) (v : pv) : res (option pv) := rbind (f v) (fun w => Ok (Some w)).
Definition unless_none (f : pv -> res pv) (v : pv) : res (option pv) := match v with PNone => Ok None | _ => always f v end.
Definition ratio_or_none (x : option pv) : res pv := match x with Some f => to_frac f | None => Ok PNone end.
Definition s_any p k := mkSlot p k (need Ok) (always Ok).
Definition s_member p k l := mkSlot p k (need (to_member l)) (always int_of).
Definition s_ratio p k := mkSlot p k ratio_or_none (always frac_of).
Definition common_slots : list (str * slot) :=
  [($"grain_type", s_any None $"grain_type");
   ($"source_id", mkSlot None $"source_id" (need to_uuid) (always str_of)); ($"src_id", mkSlot None $"source_id" (need to_uuid) (always str_of));
   ($"flow_id", mkSlot None $"flow_id" (need to_uuid) (always str_of));
   ($"origin_timestamp", mkSlot None $"origin_timestamp" (need to_time) (always text_of_time));
   ($"sync_timestamp", mkSlot None $"sync_timestamp" (need to_time) (always text_of_time));
   ($"creation_timestamp", mkSlot None $"creation_timestamp" (need to_time) (always text_of_time));
   ($"rate", mkSlot None $"rate" (need to_frac) (always frac_of)); ($"duration", mkSlot None $"duration" (need to_frac) (always frac_of))].
Definition class_slots (c : gclass) : list (str * slot) :=
  match c with
  | KGrain => []
  | KVideo => let s := Some $"cog_frame" in
      [($"format", s_member s $"format" frame_formats); ($"cog_frame_format", s_member s $"format" frame_formats); ($"width", s_any s $"width"); ($"height", s_any s $"height");
       ($"layout", s_member s $"layout" frame_layouts); ($"cog_frame_layout", s_member s $"layout" frame_layouts); ($"extension", s_any s $"extension");
       ($"source_aspect_ratio", s_ratio s $"source_aspect_ratio"); ($"pixel_aspect_ratio", s_ratio s $"pixel_aspect_ratio")]
  | KCodedVideo => let s := Some $"cog_coded_frame" in
      [($"format", s_member s $"format" frame_formats); ($"cog_frame_format", s_member s $"format" frame_formats); ($"layout", s_member s $"layout" frame_layouts);
       ($"cog_frame_layout", s_member s $"layout" frame_layouts); ($"origin_width", s_any s $"origin_width"); ($"origin_height", s_any s $"origin_height");
       ($"coded_width", s_any s $"coded_width"); ($"coded_height", s_any s $"coded_height");
       ($"is_key_frame", mkSlot s $"is_key_frame" (fun x => Ok (or_none x)) (unless_none (fun v => Ok (PBool (truthy v)))));
       ($"temporal_offset", mkSlot s $"temporal_offset" (fun x => Ok (or_none x)) (unless_none Ok));
       ($"source_aspect_ratio", s_ratio s $"source_aspect_ratio"); ($"pixel_aspect_ratio", s_ratio s $"pixel_aspect_ratio")]
  | KAudio => let s := Some $"cog_audio" in
      [($"format", s_member s $"format" audio_formats); ($"cog_audio_format", s_member s $"format" audio_formats);
       ($"samples", mkSlot s $"samples" (need Ok) (always int_of)); ($"channels", mkSlot s $"channels" (need Ok) (always int_of)); ($"sample_rate", mkSlot s $"sample_rate" (need Ok) (always int_of))]
  | KCodedAudio => let s := Some $"cog_coded_audio" in
      [($"format", s_member s $"format" audio_formats); ($"cog_audio_format", s_member s $"format" audio_formats);
       ($"samples", s_any s $"samples"); ($"channels", s_any s $"channels"); ($"sample_rate", s_any s $"sample_rate"); ($"priming", s_any s $"priming"); ($"remainder", s_any s $"remainder")]
  | KEvent => let s := Some $"event_payload" in [($"event_type", s_any s $"type"); ($"topic", s_any s $"topic")]
  end.
Definition slots (c : gclass) : list (str * slot) := class_slots c ++ common_slots.

(** ** Two lists with the same names. *)
Definition agree {A B} (R : A -> B -> Prop) (a : str * A) (b : str * B) : Prop := fst a = fst b /\ R (snd a) (snd b).
Lemma dget_agree {A B} (R : A -> B -> Prop) l l' n : Forall2 (agree R) l l' ->
  match dget n l' with Some b => exists a, dget n l = Some a /\ R a b | None => dget n l = None end.
Proof.
  intros F. induction F as [|[k a] [k' b] l l' [E H] F IH]; [reflexivity|]. cbn [fst snd] in *. subst k'. cbn [dget]. destruct (zlist_eqb n k); eauto.
Qed.
Lemma dget_app {A} n (l m : list (str * A)) : dget n (l ++ m) = match dget n l with Some v => Some v | None => dget n m end.
Proof. induction l as [|[k v] l IH]; [reflexivity|]. cbn [app dget]. destruct (zlist_eqb n k); auto. Qed.

(** The dictionary of a part. *)
Definition home (p : option str) (o : gobj) : dict :=
  match dget $"grain" (o_meta o) with
  | Some (PDict g) => match p with None => g | Some s => match dget s g with Some (PDict d) => d | _ => [] end end
  | _ => []
  end.
Definition has_part (p : option str) (o : gobj) : Prop :=
  exists g, dget $"grain" (o_meta o) = Some (PDict g) /\ match p with None => True | Some s => exists d, dget s g = Some (PDict d) end.
Definition reads_slot (f : gobj -> res pv) (s : slot) : Prop := forall o, has_part (sl_part s) o -> f o = sl_read s (dget (sl_key s) (home (sl_part s) o)).
Lemma need_dget (f : pv -> res pv) (d : dict) k : rbind (ditem k d) f = need f (dget k d).
Proof. unfold ditem, need. destruct (dget k d); reflexivity. Qed.
Lemma read_field k f : reads_slot (fun o => rbind (field k o) f) (mkSlot None k (need f) (always Ok)).
Proof.
  intros o (g & G & _). cbn [sl_part sl_key sl_read]. unfold field, home, ditem. rewrite G. cbn [rbind sub]. apply need_dget.
Qed.
Lemma read_plain k w : reads_slot (field k) (mkSlot None k (need Ok) w).
Proof. intros o H. cbn [sl_part sl_key sl_read] in *. transitivity (rbind (field k o) Ok); [destruct (field k o); reflexivity|]. exact (read_field k Ok o H). Qed.
Lemma read_field_w k f w : reads_slot (fun o => rbind (field k o) f) (mkSlot None k (need f) w).
Proof. intros o H. exact (read_field k f o H). Qed.
Lemma read_part s k f w : reads_slot (fun o => rbind (in_section s k o) f) (mkSlot (Some s) k (need f) w).
Proof.
  intros o (g & G & d & D). cbn [sl_part sl_key sl_read]. unfold in_section, field, home, ditem at 1. rewrite G. cbn [rbind sub]. unfold ditem at 1. rewrite D. cbn [rbind sub]. apply need_dget.
Qed.
Lemma read_part_plain s k w : reads_slot (in_section s k) (mkSlot (Some s) k (need Ok) w).
Proof. intros o H. transitivity (rbind (in_section s k o) Ok); [destruct (in_section s k o); reflexivity|]. exact (read_part s k Ok w o H). Qed.
Lemma read_maybe s k w : reads_slot (maybe s k) (mkSlot (Some s) k (fun x => Ok (or_none x)) w).
Proof.
  intros o (g & G & d & D). cbn [sl_part sl_key sl_read]. unfold maybe, field, home, ditem. rewrite G. cbn [rbind sub]. unfold ditem. rewrite D. reflexivity.
Qed.
Lemma read_maybe_frac s k w : reads_slot (maybe_frac s k) (mkSlot (Some s) k ratio_or_none w).
Proof.
  intros o (g & G & d & D). cbn [sl_part sl_key sl_read]. unfold maybe_frac, field, home, ditem. rewrite G. cbn [rbind sub]. unfold ditem. rewrite D. reflexivity.
Qed.
Lemma attrs_slots c : exists rest, Forall2 (agree reads_slot) (class_attrs c ++ firstn 9 common_attrs) (slots c) /\ common_attrs = firstn 9 common_attrs ++ rest.
Proof.
  exists [($"length", get_length)]. split; [|reflexivity]. unfold slots. apply Forall2_app.
  - destruct c; cbn [class_attrs class_slots];
      repeat (apply Forall2_cons; [split; [reflexivity|first [exact (read_part _ _ _ _)|exact (read_part_plain _ _ _)|exact (read_maybe _ _ _)|exact (read_maybe_frac _ _ _)]]|]); apply Forall2_nil.
  - cbn [firstn common_attrs common_slots].
    repeat (apply Forall2_cons; [split; [reflexivity|first [exact (read_field_w _ _ _)|exact (read_plain _ _)]]|]); apply Forall2_nil.
Qed.
Theorem get_slot o n s : dget n (slots (o_class o)) = Some s -> has_part (sl_part s) o -> getattr o n = sl_read s (dget (sl_key s) (home (sl_part s) o)).
Proof.
  intros H P. destruct (attrs_slots (o_class o)) as (rest & F & E). pose proof (dget_agree _ _ _ n F) as X. rewrite H in X. destruct X as (f & D & R).
  unfold getattr. rewrite E, app_assoc, dget_app, D. exact (R o P).
Qed.

(** ** Writing. *)
Definition put_home (p : option str) (d : dict) (o : gobj) : gobj :=
  match dget $"grain" (o_meta o) with
  | Some (PDict g) => with_meta (dset $"grain" (PDict (match p with None => d | Some s => dset s (PDict d) g end)) (o_meta o)) o
  | _ => o
  end.
Definition write_slot (s : slot) (v : pv) (o : gobj) : res gobj :=
  rbind (sl_write s v) (fun x => Ok (match x with
    | Some w => put_home (sl_part s) (dset (sl_key s) w (home (sl_part s) o)) o
    | None => if dhas (sl_key s) (home (sl_part s) o) then put_home (sl_part s) (ddel (sl_key s) (home (sl_part s) o)) o else o end)).
Definition writes_slot (f : setter) (s : slot) : Prop := forall v o, has_part (sl_part s) o -> f v o = write_slot s v o.
Lemma put_field_home k v o : has_part None o -> put_field k v o = Ok (put_home None (dset k v (home None o)) o).
Proof. intros (g & G & _). unfold put_field, put_home, home, with_key, ditem. rewrite G. reflexivity. Qed.
Lemma put_in_home s k v o : has_part (Some s) o -> put_in s k v o = Ok (put_home (Some s) (dset k v (home (Some s) o)) o).
Proof. intros (g & G & d & D). unfold put_in, put_home, home, with_key, ditem. rewrite G. cbn [rbind as_dict]. rewrite D. reflexivity. Qed.
Lemma write_field k f r : writes_slot (field_setter k f) (mkSlot None k r (always f)).
Proof. intros v o P. unfold field_setter, write_slot, always. cbn [sl_write sl_part sl_key]. destruct (f v); [|reflexivity]. cbn [rbind]. apply put_field_home, P. Qed.
Lemma write_part s k f r : writes_slot (part_setter s k f) (mkSlot (Some s) k r (always f)).
Proof. intros v o P. unfold part_setter, write_slot, always. cbn [sl_write sl_part sl_key]. destruct (f v); [|reflexivity]. cbn [rbind]. apply put_in_home, P. Qed.
Lemma write_maybe s k f r : writes_slot (maybe_setter s k f) (mkSlot (Some s) k r (unless_none f)).
Proof.
  intros v o P. assert (D : drop_in s k o = Ok (if dhas k (home (Some s) o) then put_home (Some s) (ddel k (home (Some s) o)) o else o)).
  { destruct P as (g & G & d & D). unfold drop_in, put_home, home, with_key, ditem, dhas. rewrite G. cbn [rbind as_dict]. rewrite D. cbn [rbind as_dict]. destruct (dget k d); reflexivity. }
  unfold maybe_setter, write_slot, unless_none, always. cbn [sl_write sl_part sl_key].
  destruct v; try exact D; (destruct (f _); [|reflexivity]; cbn [rbind]; apply put_in_home, P).
Qed.
Lemma setters_slots c : Forall2 (agree writes_slot) (class_setters c ++ common_setters) (slots c).
Proof.
  unfold slots. apply Forall2_app.
  - destruct c; cbn [class_setters class_slots]; repeat (apply Forall2_cons; [split; [reflexivity|first [exact (write_part _ _ _ _)|exact (write_maybe _ _ _ _)]]|]); apply Forall2_nil.
  - cbn [common_setters common_slots]. repeat (apply Forall2_cons; [split; [reflexivity|exact (write_field _ _ _)]|]); apply Forall2_nil.
Qed.
Theorem set_slot o n v s : dget n (slots (o_class o)) = Some s -> has_part (sl_part s) o -> set_attr n v o = write_slot s v o.
Proof.
  intros H P. pose proof (dget_agree _ _ _ n (setters_slots (o_class o))) as X. rewrite H in X. destruct X as (f & D & R). unfold set_attr. rewrite D. exact (R v o P).
Qed.

(** ** The sorts of the attributes. *)
Definition keeps_sort (so : sort) (s : slot) : Prop := forall v, sayable so v -> exists eff, accepts so v eff /\
  match eff with Refused e => sl_write s v = Err e | Reads r => exists x, sl_write s v = Ok x /\ sl_read s x = r end.
Lemma sort_any p k : keeps_sort Anything (s_any p k).
Proof. intros v _. exists (Reads (Ok v)). split; [constructor|]. exists (Some v). split; reflexivity. Qed.
Lemma sort_maybe p k : keeps_sort Anything (mkSlot p k (fun x => Ok (or_none x)) (unless_none Ok)).
Proof.
  intros v _. exists (Reads (Ok v)). split; [constructor|]. exists (match v with PNone => None | _ => Some v end). split; destruct v; reflexivity.
Qed.
Lemma sort_flag p k : keeps_sort Flag (mkSlot p k (fun x => Ok (or_none x)) (unless_none (fun v => Ok (PBool (truthy v))))).
Proof.
  intros v _. assert (D : v = PNone \/ v <> PNone) by (destruct v; [left; reflexivity|right; discriminate..]). destruct D as [->|D].
  - exists (Reads (Ok PNone)). split; [constructor|]. exists None. split; reflexivity.
  - exists (Reads (Ok (PBool (truthy v)))). split; [constructor; exact D|]. exists (Some (PBool (truthy v))). split; [|reflexivity]. destruct v; try reflexivity. destruct D. reflexivity.
Qed.
Lemma sort_id p k : keeps_sort Identifier (mkSlot p k (need to_uuid) (always str_of)).
Proof.
  intros v [_ [->|[T|[u ->]]]].
  - exists (Reads (Err EValue)). split; [apply ac_id_junk; auto|]. eexists. split; reflexivity.
  - destruct v as [|b|z|n d|s|u|u|t|t|l|d]; try discriminate T.
    + exists (Reads (Err EValue)). split; [apply ac_id_junk; eauto|]. eexists. split; reflexivity.
    + exists (Reads (Ok (PUuid u))). split; [constructor|]. eexists. split; reflexivity.
    + exists (Reads (Err EValue)). split; [apply ac_id_junk; eauto|]. eexists. split; reflexivity.
  - exists (Reads (Ok (PUuid u))). split; [constructor|]. eexists. split; reflexivity.
Qed.
Lemma sort_time p k : keeps_sort Moment (mkSlot p k (need to_time) (always text_of_time)).
Proof.
  intros v _. destruct v as [|b|z|n d|s|u|u|t|t|l|d];
    try (exists (Refused EValue); split; [apply ac_time_other; [reflexivity|discriminate]|reflexivity]).
  - exists (Reads (Err EValue)). split; [apply ac_time_junk; eauto|]. eexists. split; reflexivity.
  - exists (Reads (Err EValue)). split; [apply ac_time_junk; eauto|]. eexists. split; reflexivity.
  - exists (Reads (Ok (PTime t))). split; [constructor|]. eexists. split; reflexivity.
  - exists (Reads (Ok (PTime t))). split; [constructor|]. eexists. split; reflexivity.
Qed.
Lemma member_in l z : member l z = true <-> In z l.
Proof. unfold member. rewrite existsb_exists. split; [intros (x & I & E); apply Z.eqb_eq in E; subst; exact I|intros I; exists z; split; [exact I|apply Z.eqb_refl]]. Qed.
Lemma sort_member p k l : keeps_sort (Member l) (s_member p k l).
Proof.
  intros v _. destruct (to_int v) as [z|e] eqn:E.
  - assert (W : sl_write (s_member p k l) v = Ok (Some (PInt z))) by (cbn [s_member sl_write]; unfold always, int_of; rewrite E; reflexivity).
    destruct (member l z) eqn:M.
    + exists (Reads (Ok (PInt z))). split; [exact (ac_member l v z E (proj1 (member_in l z) M))|]. exists (Some (PInt z)). split; [exact W|]. cbn [s_member sl_read need to_member as_q]. unfold to_enum. rewrite M. reflexivity.
    + exists (Reads (Err EValue)). split; [apply (ac_member_junk l v z E); intros I; apply member_in in I; congruence|]. exists (Some (PInt z)). split; [exact W|].
      cbn [s_member sl_read need to_member as_q]. unfold to_enum. rewrite M. reflexivity.
  - exists (Refused e). split; [exact (ac_member_other l v e E)|]. cbn [s_member sl_write]. unfold always, int_of. rewrite E. reflexivity.
Qed.
Lemma sort_whole p k : keeps_sort Whole (mkSlot p k (need Ok) (always int_of)).
Proof.
  intros v _. destruct (to_int v) as [z|e] eqn:E.
  - exists (Reads (Ok (PInt z))). split; [exact (ac_whole v z E)|]. exists (Some (PInt z)). cbn [sl_write sl_read]. unfold always, int_of. rewrite E. split; reflexivity.
  - exists (Refused e). split; [exact (ac_whole_other v e E)|]. cbn [sl_write]. unfold always, int_of. rewrite E. reflexivity.
Qed.
Lemma frac_form n d : 0 < d -> exists n' d', frac n d = Ok (PFrac n' d') /\ 0 < d' /\ Z.gcd n' d' = 1 /\ n' * d = n * d'.
Proof.
  intros D. unfold frac. destruct (d =? 0) eqn:E; [lia|]. rewrite Z.sgn_pos by lia. rewrite !Z.mul_1_l. exists (n / Z.gcd n d), (d / Z.gcd n d). split; [reflexivity|].
  pose proof (Z.gcd_nonneg n d) as G0. assert (G : 0 < Z.gcd n d). { destruct (Z.eq_dec (Z.gcd n d) 0) as [X|X]; [|lia]. apply Z.gcd_eq_0_r in X. lia. }
  destruct (Z.gcd_divide_l n d) as [a A]. destruct (Z.gcd_divide_r n d) as [b B]. set (g := Z.gcd n d) in *.
  assert (X : n / g = a) by (rewrite A; apply Z.div_mul; lia). assert (Y : d / g = b) by (rewrite B; apply Z.div_mul; lia).
  split; [rewrite Y; nia|]. split; [apply Z.gcd_div_gcd; [lia|reflexivity]|]. rewrite X, Y. transitivity (a * (b * g)); [rewrite <- B; reflexivity|]. transitivity (a * g * b); [ring|]. rewrite <- A. reflexivity.
Qed.
Lemma sort_ratio p k r : (forall n d, r (Some (frac_dict n d)) = to_frac (frac_dict n d)) -> keeps_sort Ratio (mkSlot p k r (always frac_of)).
Proof.
  intros R v [K _]. destruct (as_q v) as [[n d]|] eqn:E.
  - assert (D : 0 < d). { destruct v; try discriminate E; injection E as <- <-; try lia. inversion K. assumption. }
    destruct (frac_form n d D) as (n' & d' & F & D' & G & X). exists (Reads (Ok (PFrac n' d'))). split; [exact (ac_ratio v n d n' d' E D' G X)|].
    exists (Some (frac_dict n' d')). split.
    + cbn [sl_write]. unfold always, frac_of, mk_frac. rewrite E. cbn [as_q]. rewrite !Z.mul_1_r, F. reflexivity.
    + cbn [sl_read]. rewrite R. change (to_frac (frac_dict n' d')) with (mk_frac (PInt n') (PInt d')). exact (frac_lowest n' d' D' G).
  - exists (Refused EType). split; [exact (ac_ratio_other v E)|]. cbn [sl_write]. unfold always, frac_of, mk_frac. rewrite E. reflexivity.
Qed.
Lemma sorts_slots c : Forall2 (agree keeps_sort) (sorts c) (slots c).
Proof.
  unfold slots, sorts. apply Forall2_app.
  - destruct c; cbn [class_sorts class_slots]; repeat (apply Forall2_cons; [split; [reflexivity|first
      [exact (sort_any _ _)|exact (sort_maybe _ _)|exact (sort_flag _ _)|exact (sort_member _ _ _)|exact (sort_whole _ _)|exact (sort_ratio _ _ _ (fun _ _ => eq_refl))]]|]); apply Forall2_nil.
  - cbn [common_sorts common_slots]. repeat (apply Forall2_cons; [split; [reflexivity|first
      [exact (sort_any _ _)|exact (sort_id _ _)|exact (sort_time _ _)|exact (sort_ratio _ _ _ (fun _ _ => eq_refl))]]|]); apply Forall2_nil.
Qed.

(** ** Which names are for the same place. *)
Lemma pairs c : Forall (fun a => Forall (fun b => if same_attr (fst a) (fst b)
    then sl_part (snd a) = sl_part (snd b) /\ sl_key (snd a) = sl_key (snd b) /\ sl_read (snd a) = sl_read (snd b)
    else (sl_part (snd a), sl_key (snd a)) <> (sl_part (snd b), sl_key (snd b))) (slots c)) (slots c).
Proof.
  destruct c; unfold slots; cbn [class_slots common_slots app];
  repeat (apply Forall_cons; [repeat (apply Forall_cons;
    [cbn [fst snd];
     match goal with |- if ?b then _ else _ => let v := eval vm_compute in b in change b with v; cbv iota end;
     first [split; [reflexivity|split; reflexivity] | (let X := fresh in intros X; vm_compute in X; discriminate X)]|]); apply Forall_nil|]); apply Forall_nil.
Qed.
Lemma pair_of c n m a b : dget n (slots c) = Some a -> dget m (slots c) = Some b ->
  if same_attr n m then sl_part a = sl_part b /\ sl_key a = sl_key b /\ sl_read a = sl_read b else (sl_part a, sl_key a) <> (sl_part b, sl_key b).
Proof.
  intros A B. apply dget_in in A. apply dget_in in B. pose proof (proj1 (Forall_forall _ _) (pairs c) _ A) as X. exact (proj1 (Forall_forall _ _) X _ B).
Qed.
(** The places are in the grain or in the part of its class, and are not those of the lists. *)
Definition place_ok (c : gclass) (s : slot) : Prop :=
  match sl_part s with
  | None => In (sl_key s) [$"grain_type"; $"source_id"; $"flow_id"; $"origin_timestamp"; $"sync_timestamp"; $"creation_timestamp"; $"rate"; $"duration"]
  | Some p => part_of c = Some p /\ ~ In (sl_key s) [$"components"; $"unit_offsets"; $"data"]
  end.
Lemma places c : Forall (fun a => place_ok c (snd a)) (slots c).
Proof.
  unfold slots. apply Forall_app. split.
  - destruct c; cbn [class_slots]; repeat (apply Forall_cons; [split; [reflexivity|intros [X|[X|[X|[]]]]; vm_compute in X; discriminate X]|]); apply Forall_nil.
  - cbn [common_slots]. repeat (apply Forall_cons; [unfold place_ok; cbn; tauto|]); apply Forall_nil.
Qed.
Lemma place_of c n s : dget n (slots c) = Some s -> place_ok c s.
Proof. intros H. apply dget_in in H. exact (proj1 (Forall_forall _ _) (places c) _ H). Qed.
Lemma part_not_common c p : part_of c = Some p -> ~ In p [$"grain_type"; $"source_id"; $"flow_id"; $"origin_timestamp"; $"sync_timestamp"; $"creation_timestamp"; $"rate"; $"duration"; $"timelabels"].
Proof. destruct c; cbn [part_of]; intros E; try discriminate E; injection E as <-; intros H; repeat (destruct H as [H|H]; [vm_compute in H; discriminate H|]); exact H. Qed.

(** ** A write. *)
Definition put_slot (s : slot) (x : option pv) (o : gobj) : gobj :=
  match x with
  | Some w => put_home (sl_part s) (dset (sl_key s) w (home (sl_part s) o)) o
  | None => if dhas (sl_key s) (home (sl_part s) o) then put_home (sl_part s) (ddel (sl_key s) (home (sl_part s) o)) o else o
  end.
Lemma shaped_part o s : shaped o -> place_ok (o_class o) s -> has_part (sl_part s) o.
Proof.
  intros (g & G & P) K. exists g. split; [exact G|]. unfold place_ok in K. destruct (sl_part s) as [p|]; [|exact I]. destruct K as [E _]. rewrite E in P. destruct P as (d & D & _). eauto.
Qed.
(** The dictionaries of a grain of class c after something else was put into one of them. *)
Lemma put_home_facts c o g p d : o_class o = c -> dget $"grain" (o_meta o) = Some (PDict g) -> (match p with None => True | Some s => part_of c = Some s end) ->
  o_class (put_home p d o) = c /\ o_data (put_home p d o) = o_data o /\ o_wait (put_home p d o) = o_wait o /\
  (forall k, k <> $"grain" -> dget k (o_meta (put_home p d o)) = dget k (o_meta o)) /\
  dget $"grain" (o_meta (put_home p d o)) = Some (PDict (match p with None => d | Some s => dset s (PDict d) g end)).
Proof.
  intros C G P. unfold put_home. rewrite G. cbn [with_meta o_class o_data o_wait o_meta]. split; [exact C|]. split; [reflexivity|]. split; [reflexivity|].
  split; [intros k N; apply dget_set_other; exact N|apply dget_set_same].
Qed.
