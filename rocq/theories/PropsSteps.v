(** C36 to C38 continued: the moving bar, slices with a step, and tones that cannot be made. *)
From Verif Require Import Base CogEnums VideoLayout LayoutSpec PatternTime Tone VideoPattern PatternSpec PatternTimeProofs PatternSteps.

(** [g[s:e:n]] between two grid points: every n-th grid point of the range from the first, the end excluded. *)
Theorem C37_slice_step : forall A k own (t : A) s e a b skip n,
  clock_ok k -> slow own -> as_ns k s = grid k own a -> as_ns k e = grid k own b -> (0 < skip)%nat -> (Z.to_nat (b - a) <= n)%nat ->
  getitem k own (still_get k own t) (KSlice (Some s) (Some e) (SInt (Z.of_nat skip))) n = Ok (GMany (still_grains k own t (every_nth skip 0 (between a b)), None)).
Proof. exact @slice_step. Qed.
Print Assumptions C37_slice_step.
(** A step that is the time between two grains is as good as none, whatever the generator. *)
Theorem C37_slice_period : forall G k own (get : tvalue -> res (option G)) s e ns n, 0 < fst own -> 0 < snd own -> Z.gcd (fst own) (snd own) = 1 -> ns * fst own = second * snd own ->
  getitem k own get (KSlice (Some s) e (STime ns)) n = getitem k own get (KSlice (Some s) e SNone) n.
Proof. exact @slice_period. Qed.
Print Assumptions C37_slice_period.
Theorem C37_refused : forall G k own (get : tvalue -> res (option G)) a b n, getitem k own get (KSlice a b (STime 0)) n = Err EZeroDiv /\ getitem k own get KOther n = Err EValue.
Proof. exact @slice_refused. Qed.
Print Assumptions C37_refused.
(** At 25 frames a second: every other frame of five; and the frames at a step of 80 ms, which are the same. *)
Example C37_steps_ex :
  (let run s := match getitem example_clock (25, 1) (still_get example_clock (25, 1) tt) (KSlice (Some (TvTime 0)) (Some (TvTime 200000000)) s) 100 with
     | Ok (GMany (l, None)) => map sg_origin l
     | _ => []
     end in
   run (SInt 2) = [0; 80000000; 160000000] /\ run (STime 80000000) = run (SInt 2) /\ run (SInt 4) = [0; 160000000] /\ run (STime 40000000) = [0; 40000000; 80000000; 120000000; 160000000] /\
   run (STime 40000000) = run SNone /\ run (STime 200000000) = [0]).
Proof. vm_compute. repeat split. Qed.

(** The constructor of tones takes exactly the formats of the table and planes of 24 bits. *)
Theorem C36_refused : forall t, (t_samples t = 0 -> new_tone t = Err EZeroDiv) /\
  (t_samples t <> 0 -> (new_tone t = Ok t <-> In (t_format t) (0x4 :: map fst tone_table)) /\ (~ In (t_format t) (0x4 :: map fst tone_table) -> new_tone t = Err EValue)).
Proof. exact tone_refused. Qed.
Print Assumptions C36_refused.
Example C36_refused_ex : (let t f n := new_tone (mkTone n 2 f 48000 1000 (fun _ _ => 0)) in
  match t 0x2 1920, t 0x4 1920 with Ok _, Ok _ => True | _, _ => False end /\ t 0x2 0 = Err EZeroDiv /\ t 0x7 1920 = Err EValue /\ t 0x201 1920 = Err EValue).
Proof. vm_compute. repeat split. Qed.

(** C38 continued. The moving bar over a still: at every key there is the grain of the nearest point of the grid, with the bar of that count. *)
Theorem C38_bar_at : forall k own pic speed f w h bar key, clock_ok k -> slow own -> let c := count_at k key own in
  overlay_get k own (still_get k own pic) speed f w h bar key = rbind (overlay f w h bar (speed c) pic) (fun d => Ok (Some (mkSg d (grid k own c) (grid k own c)))).
Proof. exact bar_at. Qed.
Print Assumptions C38_bar_at.
Theorem C38_bar_formats : forall f w h bar fnum data, ~ In f (map fst pattern_table) -> overlay f w h bar fnum data = Err EValue.
Proof. exact bar_formats. Qed.
Print Assumptions C38_bar_formats.
(** So all times are in it, though its source has only those of the grid (movingbaroverlay.py 70-72). *)
Theorem C38_bar_off_grid_refuted : forall k own pic speed f hs vs b bits w h bar key, clock_ok k -> slow own -> In (f, (hs, vs, b, bits)) pattern_table -> 0 <= w -> 0 < h / vs -> 0 <= h ->
  zlen pic = size_for_format f w h -> contains (overlay_get k own (still_get k own pic) speed f w h bar) key = Ok true.
Proof. exact bar_off_grid. Qed.
Print Assumptions C38_bar_off_grid_refuted.
Example C38_bar_ex :
  (let src := still_get example_clock (25, 1) (repeat 9 12) in let get := overlay_get example_clock (25, 1) src (fun c => c) U8_444 2 2 1 in
   src (TvTime 40000001) = Ok None /\ contains get (TvTime 40000001) = Ok true /\
   get (TvTime 40000001) = Ok (Some (mkSg [9; 9; 16; 16; 9; 9; 128; 128; 9; 9; 128; 128] 40000000 40000000)) /\
   get (TvCount 2 (25, 1)) = Ok (Some (mkSg [16; 16; 9; 9; 128; 128; 9; 9; 128; 128; 9; 9] 80000000 80000000)) /\
   overlay YUYV 2 2 1 0 (repeat 9 8) = Err EValue).
Proof. vm_compute. repeat split. Qed.
