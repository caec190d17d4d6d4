(** What a text and a tree must look like to survive being written as JSON and read back. *)
From Verif Require Export JsonText.
Local Open Scope N_scope.

Definition trail_byte (c : byte) : Prop := 0x80 <= Byte.to_N c < 0xC0.
(** Bytes with the shape of UTF-8: ASCII characters, and first bytes followed by as many trail bytes as they announce. *)
Inductive utf8_text : bytes -> Prop :=
| utf8_nil : utf8_text []
| utf8_1 : forall c s, Byte.to_N c < 0x80 -> utf8_text s -> utf8_text (c :: s)
| utf8_2 : forall c a s, 0xC0 <= Byte.to_N c < 0xE0 -> trail_byte a -> utf8_text s -> utf8_text (c :: a :: s)
| utf8_3 : forall c a b s, 0xE0 <= Byte.to_N c < 0xF0 -> trail_byte a -> trail_byte b -> utf8_text s -> utf8_text (c :: a :: b :: s)
| utf8_4 : forall c a b d s, 0xF0 <= Byte.to_N c < 0xF8 -> trail_byte a -> trail_byte b -> trail_byte d -> utf8_text s -> utf8_text (c :: a :: b :: d :: s).

(** Every key and every value of the tree is such a text. *)
Inductive utf8_tree : ptree -> Prop :=
| utf8_pt : forall d cs, utf8_text d -> (forall k c, In (k, c) cs -> utf8_text k /\ utf8_tree c) -> utf8_tree (PT d cs).
(** No node has both a value and children. *)
Inductive value_or_children : ptree -> Prop :=
| voc_value : forall d, value_or_children (PT d [])
| voc_children : forall cs, (forall k c, In (k, c) cs -> value_or_children c) -> value_or_children (PT [] cs).
(** A tree JSON can express: moreover, its root is no bare value. *)
Definition json_tree (t : ptree) : Prop := pt_data t = [] /\ value_or_children t.

(** Secrets whose names and values are such texts. *)
Definition secret_texts (l : list (bytes * bytes)) : Prop := Forall (fun kv => utf8_text (fst kv) /\ utf8_text (snd kv)) l.
