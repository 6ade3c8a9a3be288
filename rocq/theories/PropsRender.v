(** C70: the texts of a comparison. *)
From Coq Require Import String.
From Verif Require Import Base PyValue GrainObj Compare CompareExample Render RenderSpec RenderProofs RenderMain RenderExample.
Local Open Scope list_scope.

(** A failed comparison of grains blames some part: the way down to it fails all along and has nothing excluded on it, and the message has that part's, in parentheses. *)
Theorem C70_blames : forall psnr opts a b r own, compare_grain psnr opts a b = Ok r -> r_equal r = false ->
  exists d, blamed r d /\ r_children d = [] /\ r_equal d = false /\ within ($"(" ++ own d ++ $")") (msg own r).
Proof. exact grain_blames. Qed.
Print Assumptions C70_blames.
Theorem C70_blameless : forall psnr opts a b r, compare_grain psnr opts a b = Ok r -> (r_equal r = false <-> exists d, blamed r d).
Proof. exact grain_blameless. Qed.
Print Assumptions C70_blameless.
Example C70_blames_ex : rbind ex_result (fun r => Ok (r_equal r, msg ex_own r)) = Ok (false, $"{}: ({}.flow_id); ({}.data); <IGNORING: {}.creation_timestamp>") /\
  rbind (compare_grain no_psnr [] (ex_keyed $"x") (ex_keyed $"y")) (fun r => Ok (r_equal r, msg ex_own r)) =
    Ok (false, $"{}: ({}.event_data: ({}.event_data[0]: ({}.event_data[0]['x']); ({}.event_data[0]['y'])))").
Proof. vm_compute. auto. Qed.

(** The message has the message of everything on the way down through failed parts, and nothing else matters to it. *)
Theorem C70_mentions : forall own r d, mentioned r d -> within (own d) (msg own r).
Proof. exact msg_mentions. Qed.
Print Assumptions C70_mentions.
Theorem C70_only : forall own own' r, (forall d, mentioned r d -> own d = own' d) -> msg own r = msg own' r.
Proof. exact msg_only. Qed.
Print Assumptions C70_only.
Theorem C70_plain : forall own r, msg own r = own r <-> forall c, In c (r_children r) -> r_equal c = true.
Proof. exact msg_plain. Qed.
Print Assumptions C70_plain.
Example C70_only_ex : rbind ex_result (fun r => Ok (msg ex_own r)) = rbind ex_result (fun r => Ok (msg ex_own' r)) /\
  rbind (compare_grain no_psnr [] (ex_s16 5 [1; 2]) (ex_s16 5 [1; 2])) (fun r => Ok (msg ex_own r)) = Ok $"{}".
Proof. vm_compute. auto. Qed.

(** The printed text has a line for each part, marked as ignored, the same or not the same and indented by its depth. *)
Theorem C70_page : forall own more r, tidy own more r -> exists ls, on_lines ls (to_str own more r) /\ page own more 0 r ls.
Proof. exact shown_page. Qed.
Print Assumptions C70_page.
(** From the text one can tell the comparison: same text, same parts with the same marks and messages. *)
Theorem C70_back : forall own more own' more' r r', tidy own more r -> tidy own' more' r' -> to_str own more r = to_str own' more' r' -> alike own more own' more' r r'.
Proof. exact shown_alike. Qed.
Print Assumptions C70_back.
Example C70_page_ex : tidy ex_own ex_more (ex_small ex_result) /\ to_str ex_own ex_more (ex_small ex_result) =
  [0x274c] ++ $"   {}" ++ [10] ++ $"  " ++ [0x274c] ++ $"   {}.flow_id" ++ [10] ++ $"  " ++ [0x25EF] ++ $"   {}.creation_timestamp" ++ [10] ++
  $"  " ++ [0x2705] ++ $"   {}.timelabels" ++ [10] ++ $"    " ++ [0x2705] ++ $"   len({}.timelabels)" ++ [10] ++
  $"  " ++ [0x274c] ++ $"   {}.data" ++ [10] ++ $"    replace".
Proof. split; [apply ex_tidy; vm_compute; reflexivity|]. vm_compute. reflexivity. Qed.
