(** Grains as they come to be and are changed, by all the operations that are modelled. *)
From Coq Require Import String.
From Verif Require Import Base GsfPrim GsfDecode PyValue GrainObj Event Lists GrainSet GrainSetSpec GrainCopy GrainGsf CompareSpec.
Local Open Scope list_scope.

(** Arguments: dictionaries in them have each key once, and payloads are made of bytes. *)
Definition arg_ok (a : darg) : Prop := match a with ABytes b => bytes_ok b | _ => True end.
Definition lop_good (op : lop) : Prop :=
  match op with LSet _ v | LInsert _ v | LAppend v => pv_ok v | LSetSlice _ vs | LExtend vs => Forall pv_ok vs | _ => True end.
Definition eop_good (op : eop) : Prop :=
  match op with
  | SetType v | SetTopic v | PutKey _ _ v | PutPath _ v | PutPre _ v | PutPost _ v => pv_ok v
  | Append p x y => pv_ok p /\ pv_ok x /\ pv_ok y
  | SetEntries l => Forall (fun d => pv_ok (PDict d)) l
  | SetData _ | DelKey _ _ => True
  end.
(** Changing a time label. *)
Definition label_edit (f : dict -> res dict) : Prop := exists v, pv_ok v /\ (f = put_tag v \/ f = put_count v \/ f = put_rate v \/ f = put_drop v).
(** A history: a grain is made, by a constructor or by reading a file; then its attributes, its payload, its length, its lists or
    its entries are changed, as often as one likes and whether or not this raises; or it is copied. *)
Inductive lives : gobj -> Prop :=
| lv_made o : made o -> stored_ok o -> lives o
| lv_read now k f s l s' out i o : bytes_ok (f_data f) -> decode_file k f = Ok (s, (l, s', out)) -> In i l -> item_object now (f_data f) i = Ok o -> lives o
| lv_attr o n v o' : lives o -> pv_ok v -> set_attr n v o = Ok o' -> lives o'
| lv_data o a o' : lives o -> arg_ok a -> set_data a o = Ok o' -> lives o'
| lv_length o n o' : lives o -> GrainSet.set_length n o = Ok o' -> lives o'
| lv_list o k op : lives o -> lop_good op -> lives (fst (do_op k op o))
| lv_labels o vs : lives o -> Forall pv_ok vs -> lives (fst (set_labels vs o))
| lv_add_label o tag count rate drop : lives o -> pv_ok tag -> lives (fst (add_timelabel tag count rate drop o))
| lv_edit_label o i f : lives o -> label_edit f -> lives (fst (edit_label i f o))
| lv_offsets o vs : lives o -> (forall l, vs = Some l -> Forall pv_ok l) -> lives (fst (set_offset_list vs o))
| lv_await o b : lives o -> bytes_ok b -> o_data o = None -> lives (mkO (o_class o) (o_meta o) (Some b) (o_wait o))
| lv_event o op : lives o -> eop_good op -> lives (fst (apply_op op o))
| lv_copy o now o' : lives o -> copy_obj now o = Ok o' -> lives o'.
