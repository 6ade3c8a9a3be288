(** What should survive a conversion to finer formats and back. *)
From Coq Require Import String.
From Verif Require Import Base CogEnums PyValue GrainObj NpView NpSpec NpConvSpec.
Local Open Scope list_scope.

(** The formats with their kinds of picture, v210 among them, and a sample of a grain of such a format. *)
Definition pictured : list (Z * kind) := kinds ++ [(v210, yuv422 10)].
Definition pixel (g : ngrain) (n : cname) (x y : Z) : Z := if g_fmt g =? v210 then v210_sample g n x y else sample g n x y.

(** A kind of picture that loses nothing of another: the same colours and bits, and at least as many chroma samples. *)
Definition finer (a b : kind) : Prop := k_model a = k_model b /\ k_depth a = k_depth b /\ k_hs a <= k_hs b /\ k_vs a <= k_vs b.
(** The sample of a picture of the kind [k] that covers the sample at [x] (at [y]) of the kind [b]. *)
Definition across (k b : kind) (n : cname) (x : Z) : Z := match n with CU | CV => x * k_hs b / k_hs k | _ => x end.
Definition down (k b : kind) (n : cname) (y : Z) : Z := match n with CU | CV => y * k_vs b / k_vs k | _ => y end.
(** The picture [g] of the kind [b] is the picture [g0] of the kind [k] with its chroma samples repeated. *)
Definition carried (k : kind) (g0 : ngrain) (b : kind) (g : ngrain) : Prop :=
  same_size g0 g /\ forall n x y, In n (names (k_model k)) -> in_comp b g n x y -> pixel g n x y = pixel g0 n (across k b n x) (down k b n y).
(** No sample has more bits than its kind. *)
Definition modest (g : ngrain) (k : kind) : Prop := forall n x y, In n (names (k_model k)) -> in_comp k g n x y -> 0 <= pixel g n x y < 2 ^ k_depth k.
(** Every item of the payload belongs to a sample, or (v210) those that do not are 0. *)
Definition no_padding (g : ngrain) : Prop := (g_fmt g = v210 -> v210_clean g) /\ ~ In (g_fmt g) [RGBx; xRGB; BGRx; xBGR].
(** A format that loses nothing of the kind [k]. *)
Definition fine (k : kind) (f : Z) : Prop := exists b, In (f, b) pictured /\ finer b k.
