(** What is asked of a wrapped file: it is an ideal file of its own contents, and cannot be told from the in-memory file. *)
From Verif Require Import Base AsyncBytes AsyncBytesSpec.

(** The result of one operation on a file that gives fewer bytes at its end instead of failing, and that tells where a seek went to.
    [f] is the ideal file before the operation. *)
Definition short (f : ideal) (o : aop) (r : res aout) : Prop :=
  match o with
  | ARead size => r = Ok (OBytes (if size <? 0 then rest f else zfirst size (rest f)))
  | ASeek _ _ => r = Ok (ONum (id_pos (fst (id_step f o))))
  | _ => r = snd (id_step f o)
  end.
Inductive shorts : ideal -> list aop -> list (res aout) -> Prop :=
| sh_nil f : shorts f [] []
| sh_cons f o ops r rs : short f o r -> shorts (fst (id_step f o)) ops rs -> shorts f (o :: ops) (r :: rs).
(** The histories considered: [readall] is not used, sizes and positions are not negative, no write of nothing after the end. *)
Definition decent (f : ideal) (o : aop) : Prop :=
  match o with
  | ARead size => -1 <= size
  | AReadAll => False
  | AReadInto size => 0 <= size
  | AWrite d => d <> [] \/ id_pos f <= zlen (id_data f)
  | ATruncate (Some s) => 0 <= s
  | ASeek _ _ => 0 <= id_pos (fst (id_step f o))
  | _ => True
  end.
Inductive Decent : ideal -> list aop -> Prop :=
| Dc_nil f : Decent f []
| Dc_cons f o ops : decent f o -> Decent (fst (id_step f o)) ops -> Decent f (o :: ops).

(** Two files in one place: the same results, apart from those of seeks, when every read asks for no more than there is. *)
Definition within (f : ideal) (o : aop) : Prop := match o with ARead size => size <= zlen (rest f) | _ => True end.
Inductive Within : ideal -> list aop -> Prop :=
| Wi_nil f : Within f []
| Wi_cons f o ops : within f o -> Within (fst (id_step f o)) ops -> Within f (o :: ops).
Definition is_seek (o : aop) : bool := match o with ASeek _ _ => true | _ => false end.
Inductive indistinct : list aop -> list (res aout) -> list (res aout) -> Prop :=
| in_nil : indistinct [] [] []
| in_cons o ops r r' rs rs' : (is_seek o = false -> r = r') -> indistinct ops rs rs' -> indistinct (o :: ops) (r :: rs) (r' :: rs').
