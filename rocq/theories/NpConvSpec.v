(** What the conversions should do to pictures. *)
From Verif Require Import Base CogEnums VideoLayout NpView NpSpec NpConvert.

(** v210: a line is [v210_words] 32-bit words; six pixels take four words, each with three 10-bit fields from the least
    significant bit:  U0 Y0 V0 | Y1 U1 Y2 | V1 Y3 U2 | Y4 V2 Y5.  Word and field of a sample in its group: *)
Definition v210_place (n : cname) (x : Z) : Z * Z :=
  let y := nth (Z.to_nat (x mod 6)) [(0, 1); (1, 0); (1, 2); (2, 1); (3, 0); (3, 2)] (0, 0) in
  let u := nth (Z.to_nat (x mod 3)) [(0, 0); (1, 1); (2, 2)] (0, 0) in
  let v := nth (Z.to_nat (x mod 3)) [(0, 2); (2, 0); (3, 1)] (0, 0) in
  match n with
  | CY => (4 * (x / 6) + fst y, snd y)
  | CU => (4 * (x / 3) + fst u, snd u)
  | _ => (4 * (x / 3) + fst v, snd v)
  end.
(** The words of a line: 128 bytes for 48 pixels. *)
Definition line_words (w : Z) : Z := 128 * ((w + 47) / 48) / 4.
Definition v210_sample (g : ngrain) (n : cname) (x y : Z) : Z :=
  let '(word, field) := v210_place n x in
  g_data g (y * line_words (g_w g) + word) / 2 ^ (10 * field) mod 2 ^ 10.

(** A field of a word, and whether it belongs to the picture. *)
Definition v210_used (w word field : Z) : Prop :=
  exists n x, In n [CY; CU; CV] /\ 0 <= x < comp_w (yuv422 10) n w /\ v210_place n x = (word, field).

(** A v210 grain, and one with nothing in the unused fields. *)
Definition v210_ok (g : ngrain) : Prop := g_fmt g = v210 /\ np_ok g.
Definition v210_clean (g : ngrain) : Prop := forall j y, 0 <= j < line_words (g_w g) -> 0 <= y < g_h g ->
  g_data g (y * line_words (g_w g) + j) < 2 ^ 30 /\
  forall f, 0 <= f < 3 -> ~ v210_used (g_w g) j f -> g_data g (y * line_words (g_w g) + j) / 2 ^ (10 * f) mod 2 ^ 10 = 0.

(** The kinds a primitive conversion is for. *)
Definition model_eqb (a b : model) : bool := match a, b with MYuv, MYuv => true | MRgb, MRgb => true | _, _ => false end.
Definition same_sub (a b : kind) : bool := (k_hs a =? k_hs b) && (k_vs a =? k_vs b).
Definition applies (k : conv) (a b : kind) : bool :=
  match k with
  | KCopyYuv => model_eqb (k_model a) MYuv && model_eqb (k_model b) MYuv && same_sub a b && (k_depth a =? k_depth b)
  | KCopyRgb => model_eqb (k_model a) MRgb && model_eqb (k_model b) MRgb && same_sub a b && (k_depth a =? k_depth b)
  | KMean444 => model_eqb (k_model a) MYuv && model_eqb (k_model b) MYuv && (k_depth a =? k_depth b) && same_sub a (yuv444 0) && same_sub b (yuv422 0)
  | KMean422 => model_eqb (k_model a) MYuv && model_eqb (k_model b) MYuv && (k_depth a =? k_depth b) && same_sub a (yuv422 0) && same_sub b (yuv420 0)
  | KDup422 => model_eqb (k_model a) MYuv && model_eqb (k_model b) MYuv && (k_depth a =? k_depth b) && same_sub a (yuv422 0) && same_sub b (yuv444 0)
  | KDup420 => model_eqb (k_model a) MYuv && model_eqb (k_model b) MYuv && (k_depth a =? k_depth b) && same_sub a (yuv420 0) && same_sub b (yuv422 0)
  | KDownYuv => model_eqb (k_model a) MYuv && model_eqb (k_model b) MYuv && same_sub a b && (k_depth b <? k_depth a)
  | KDownRgb => model_eqb (k_model a) MRgb && model_eqb (k_model b) MRgb && same_sub a b && (k_depth b <? k_depth a)
  | KUpYuv => model_eqb (k_model a) MYuv && model_eqb (k_model b) MYuv && same_sub a b && (k_depth a <? k_depth b)
  | KUpRgb => model_eqb (k_model a) MRgb && model_eqb (k_model b) MRgb && same_sub a b && (k_depth a <? k_depth b)
  | KRgbToYuv => model_eqb (k_model a) MRgb && model_eqb (k_model b) MYuv && same_sub a b && same_sub b (yuv444 0) && (k_depth a =? k_depth b)
  | KYuvToRgb => model_eqb (k_model a) MYuv && model_eqb (k_model b) MRgb && same_sub a b && same_sub b (yuv444 0) && (k_depth a =? k_depth b)
  | _ => false
  end.

(** What a primitive conversion does to a picture: [s n x y] are the samples of the source. *)
Definition halves_up (a b : Z) : Z := (a + b + 1) / 2.
Definition nearest (n a : Z) : Z := (a + 2 ^ (n - 1)) / 2 ^ n.
Definition is_chroma (n : cname) : bool := match n with CU | CV => true | _ => false end.
Definition meaning (k : conv) (o : oracle) (fmt_in : Z) (a b : kind) (s : cname -> Z -> Z -> Z) (n : cname) (x y : Z) : Z :=
  match k with
  | KCopyYuv | KCopyRgb => s n x y
  | KMean444 => if is_chroma n then halves_up (s n (2 * x) y) (s n (2 * x + 1) y) else s n x y
  | KMean422 => if is_chroma n then halves_up (s n x (2 * y)) (s n x (2 * y + 1)) else s n x y
  | KDup422 => if is_chroma n then s n (x / 2) y else s n x y
  | KDup420 => if is_chroma n then s n x (y / 2) else s n x y
  | KDownYuv | KDownRgb => nearest (k_depth a - k_depth b) (s n x y)
  | KUpYuv | KUpRgb =>
      let d := k_depth b - k_depth a in
      let i := match n with CY | CR => 0 | CU | CG => 1 | CV | CB => 2 end in
      s n x y * 2 ^ d + o_noise o fmt_in i x y mod 2 ^ d
  | KRgbToYuv => Z.min (Z.max (o_matrix o (match n with CY => 0 | CU => 1 | _ => 2 end) (s CR x y) (s CG x y) (s CB x y)) 0) (2 ^ k_depth b)
  | KYuvToRgb => Z.min (Z.max (o_matrix o (match n with CR => 3 | CG => 4 | _ => 5 end) (s CY x y) (s CU x y) (s CV x y)) 0) (2 ^ k_depth a)
  | _ => 0
  end.

(** The formats conversions are registered for. *)
Definition formats : list Z := map fst kinds ++ [v210].

(** The kind of picture a conversion of several steps goes through. From RGB: full chroma at the depth of the RGB. To RGB: full
    chroma at the depth of the RGB, but RGB at its own depth if the source has full chroma and another depth. Among YUV the chroma
    is changed before the depth, but after it when the chroma gets less and the depth more. *)
Definition less_chroma (a b : kind) : bool := k_hs a * k_vs a <? k_hs b * k_vs b.
Definition middle (a b : kind) : kind :=
  match k_model a, k_model b with
  | MRgb, _ => yuv444 (k_depth a)
  | MYuv, MRgb => if same_sub a (yuv444 0) then rgb444 (k_depth a) else yuv444 (k_depth b)
  | MYuv, MYuv => if less_chroma a b && (k_depth a <? k_depth b) then mkKind MYuv (k_hs a) (k_vs a) (k_depth b) else mkKind MYuv (k_hs b) (k_vs b) (k_depth a)
  end.
