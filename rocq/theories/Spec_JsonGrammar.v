(** The JSON texts (RFC 8259) and the trees they stand for, as a grammar. *)
From Verif Require Export Json.
Local Open Scope N_scope.

Definition json_space (s : bytes) : Prop := Forall (fun c => In c [x20; x09; x0a; x0d]) s.

(** The bytes of a code point in UTF-8. *)
Inductive utf8_bytes (n : N) : bytes -> Prop :=
| utf8_bytes_1 : forall a, n < 0x80 -> Byte.to_N a = n -> utf8_bytes n [a]
| utf8_bytes_2 : forall a b h l, 0x80 <= n < 0x800 -> l < 64 -> n = h * 64 + l ->
    Byte.to_N a = 0xC0 + h -> Byte.to_N b = 0x80 + l -> utf8_bytes n [a; b]
| utf8_bytes_3 : forall a b c h m l, 0x800 <= n < 0x10000 -> m < 64 -> l < 64 -> n = (h * 64 + m) * 64 + l ->
    Byte.to_N a = 0xE0 + h -> Byte.to_N b = 0x80 + m -> Byte.to_N c = 0x80 + l -> utf8_bytes n [a; b; c]
| utf8_bytes_4 : forall a b c d h i m l, 0x10000 <= n < 0x110000 -> i < 64 -> m < 64 -> l < 64 -> n = ((h * 64 + i) * 64 + m) * 64 + l ->
    Byte.to_N a = 0xF0 + h -> Byte.to_N b = 0x80 + i -> Byte.to_N c = 0x80 + m -> Byte.to_N d = 0x80 + l -> utf8_bytes n [a; b; c; d].

(** A character that stands for itself in a string: no quote, no backslash. *)
Definition json_trail (c : byte) : Prop := 0x80 <= Byte.to_N c < 0xC0.
Inductive json_plain : bytes -> Prop :=
| json_plain_1 : forall c, Byte.to_N c < 0x80 -> c <> x22 -> c <> x5c -> json_plain [c]
| json_plain_2 : forall c a, 0xC0 <= Byte.to_N c < 0xE0 -> json_trail a -> json_plain [c; a]
| json_plain_3 : forall c a b, 0xE0 <= Byte.to_N c < 0xF0 -> json_trail a -> json_trail b -> json_plain [c; a; b]
| json_plain_4 : forall c a b d, 0xF0 <= Byte.to_N c < 0xF8 -> json_trail a -> json_trail b -> json_trail d -> json_plain [c; a; b; d].

(** What stands after the backslash, and the character meant. *)
Definition json_escape (c meant : byte) : Prop :=
  In (c, meant) [(x22, x22); (x5c, x5c); (x2f, x2f); (x62, x08); (x66, x0c); (x6e, x0a); (x72, x0d); (x74, x09)].

Inductive json_hex : byte -> N -> Prop :=
| json_hex_09 : forall c v, v < 10 -> Byte.to_N c = 0x30 + v -> json_hex c v
| json_hex_AF : forall c v, 10 <= v < 16 -> Byte.to_N c = 0x41 + (v - 10) -> json_hex c v
| json_hex_af : forall c v, 10 <= v < 16 -> Byte.to_N c = 0x61 + (v - 10) -> json_hex c v.
(** [\uXXXX] for the number n *)
Inductive json_unicode (n : N) : bytes -> Prop :=
| json_u : forall a b c d va vb vc vd, json_hex a va -> json_hex b vb -> json_hex c vc -> json_hex d vd ->
    n = va * 4096 + vb * 256 + vc * 16 + vd -> json_unicode n [x5c; x75; a; b; c; d].

(** The inside of a string, and the text it stands for. *)
Inductive json_chars : bytes -> bytes -> Prop :=
| jc_end : json_chars [] []
| jc_plain : forall c w t, json_plain c -> json_chars w t -> json_chars (c ++ w) (c ++ t)
| jc_escape : forall c m w t, json_escape c m -> json_chars w t -> json_chars (x5c :: c :: w) (m :: t)
| jc_unicode : forall n u p w t, json_unicode n u -> n < 0xD800 \/ 0xE000 <= n -> utf8_bytes n p ->
    json_chars w t -> json_chars (u ++ w) (p ++ t)
| jc_pair : forall h l u v p w t, json_unicode h u -> json_unicode l v -> 0xD800 <= h < 0xDC00 -> 0xDC00 <= l < 0xE000 ->
    utf8_bytes (0x10000 + (h - 0xD800) * 0x400 + (l - 0xDC00)) p -> json_chars w t -> json_chars (u ++ v ++ w) (p ++ t).

(** A number: sign, whole part without leading zeros, fraction, exponent. *)
Definition json_digits (s : bytes) : Prop := s <> [] /\ Forall (fun c => 0x30 <= Byte.to_N c <= 0x39) s.
Definition json_whole (s : bytes) : Prop := s = [x30] \/ json_digits s /\ hd_error s <> Some x30.
Definition json_fraction (s : bytes) : Prop := s = [] \/ exists d, s = x2e :: d /\ json_digits d.
Definition json_exponent (s : bytes) : Prop :=
  s = [] \/ exists e g d, s = e :: g ++ d /\ In e [x65; x45] /\ In g [[]; [x2b]; [x2d]] /\ json_digits d.
Definition json_number (s : bytes) : Prop :=
  exists m i f e, s = m ++ i ++ f ++ e /\ In m [[]; [x2d]] /\ json_whole i /\ json_fraction f /\ json_exponent e.

(** Values.  Strings, numbers, true, false and null all become plain text; the items of an array get empty keys. *)
Inductive json_value : bytes -> ptree -> Prop :=
| jv_string : forall w t, json_chars w t -> json_value (x22 :: w ++ [x22]) (PT t [])
| jv_number : forall w, json_number w -> json_value w (PT w [])
| jv_word : forall w, In w [bs "true"; bs "false"; bs "null"] -> json_value w (PT w [])
| jv_empty_object : forall a, json_space a -> json_value (x7b :: a ++ [x7d]) (PT [] [])
| jv_empty_array : forall a, json_space a -> json_value (x5b :: a ++ [x5d]) (PT [] [])
| jv_object : forall w l, json_members w l -> json_value (x7b :: w ++ [x7d]) (PT [] l)
| jv_array : forall w l, json_items w l -> json_value (x5b :: w ++ [x5d]) (PT [] l)
with json_members : bytes -> list (bytes * ptree) -> Prop :=
| jms_last : forall w k t, json_member w k t -> json_members w [(k, t)]
| jms_more : forall w k t w' l, json_member w k t -> json_members w' l -> json_members (w ++ x2c :: w') ((k, t) :: l)
with json_member : bytes -> bytes -> ptree -> Prop :=
| jm_one : forall a w k b c v t d, json_space a -> json_chars w k -> json_space b -> json_space c -> json_value v t -> json_space d ->
    json_member (a ++ x22 :: w ++ x22 :: b ++ x3a :: c ++ v ++ d) k t
with json_items : bytes -> list (bytes * ptree) -> Prop :=
| jis_last : forall a v t d, json_space a -> json_value v t -> json_space d -> json_items (a ++ v ++ d) [([], t)]
| jis_more : forall a v t d w l, json_space a -> json_value v t -> json_space d -> json_items w l -> json_items (a ++ v ++ d ++ x2c :: w) (([], t) :: l).

(** A whole text. *)
Definition json_text (s : bytes) (t : ptree) : Prop :=
  exists a v d, s = a ++ v ++ d /\ json_space a /\ json_value v t /\ json_space d.
