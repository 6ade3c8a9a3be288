(** Options, a template and a file, for the examples in PropsToolArgs.v. *)
From Coq Require Import String.
From Verif Require Import Base GsfPrim GsfDecode CogEnums GsfEncode GsfEncState GsfExamples PatternTime PatternSpec PyValue GrainObj Wrap WrapSpec Tools ToolsExample ToolArgs.
Local Open Scope list_scope.

(** --size " 4 x2" --format U8_422 --rate 50 --start-ts 1:0 --flow-id ...7 *)
Definition ta_video : video_options := mkVo (Some 7) None 1000000000 $" 4 x2" U8_422 50.
Definition ta_run (a : video_options) : res (yielded gobj * (ofile * res unit)) :=
  rbind (video_template 9 21 22 a) (fun '(t, _) =>
  let w := grain_wrapper example_clock tx_first src_read 9 t (buffered tx_input) 30 in Ok (w, wrap_to_gsf (ex_uuid 9) ex_created t w tx_fresh)).
Definition ta_made (r : res (gobj * wrapper)) : gobj := match r with Ok (t, _) => t | Err _ => mkO KGrain [] None None end.
