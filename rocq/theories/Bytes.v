(** Byte strings.  [std::string], [std::vector<uint8_t>], [ndn::Buffer] and the TLV-VALUE of an
    [ndn::Block] are all modelled as [list byte]. *)
From Coq Require Export List NArith ZArith Bool.
From Coq Require Export Strings.Byte.
From Coq Require Strings.String.
Export Coq.Strings.String.StringSyntax.
Export ListNotations.

Definition bytes : Type := list byte.

(** A C++ string literal, e.g. ["need-code"]. *)
Definition bs (s : String.string) : bytes := String.list_byte_of_string s.
Arguments bs s%string_scope.

(** [uint8_t(n)] : the low 8 bits of [n]. *)
Definition byte_of_N (n : N) : byte :=
  match Byte.of_N (n mod 256) with Some b => b | None => x00 end.

Definition byte_eqb (a b : byte) : bool := N.eqb (Byte.to_N a) (Byte.to_N b).

(** [operator==] on [std::string] / [std::vector<uint8_t>] / [std::array<uint8_t, n>]. *)
Fixpoint bytes_eqb (a b : bytes) : bool :=
  match a, b with
  | [], [] => true
  | x :: a', y :: b' => byte_eqb x y && bytes_eqb a' b'
  | _, _ => false
  end.

(** [operator<] on [std::string] (key order of [std::map<std::string, ..>], unsigned bytes as in
    [std::char_traits<char>]) and on [std::array<uint8_t, 8>] (key order of the in-memory storage). *)
Fixpoint bytes_ltb (a b : bytes) : bool :=
  match a, b with
  | [], [] => false
  | [], _ :: _ => true
  | _ :: _, [] => false
  | x :: a', y :: b' =>
      if N.ltb (Byte.to_N x) (Byte.to_N y) then true
      else if N.ltb (Byte.to_N y) (Byte.to_N x) then false
      else bytes_ltb a' b'
  end.

Definition blen (b : bytes) : N := N.of_nat (length b).

(** Big-endian encoding on [k] bytes ([boost::endian::endian_store<.., order::big>], the NDN TLV
    integer encodings) and decoding. *)
Fixpoint be_enc (k : nat) (n : N) : bytes :=
  match k with
  | O => []
  | S k' => byte_of_N (n / 256 ^ N.of_nat k') :: be_enc k' n
  end.

Fixpoint be_dec_acc (acc : N) (b : bytes) : N :=
  match b with
  | [] => acc
  | x :: b' => be_dec_acc (acc * 256 + Byte.to_N x) b'
  end.
Definition be_dec (b : bytes) : N := be_dec_acc 0 b.

(** Index of the last occurrence of a byte ([std::string::rfind] of one character). *)
Fixpoint rfind_byte (c : byte) (s : bytes) : option nat :=
  match s with
  | [] => None
  | x :: s' =>
      match rfind_byte c s' with
      | Some i => Some (S i)
      | None => if byte_eqb x c then Some O else None
      end
  end.

(** Index of the first occurrence of a byte ([std::string::find] of one character). *)
Fixpoint find_byte (c : byte) (s : bytes) : option nat :=
  match s with
  | [] => None
  | x :: s' =>
      if byte_eqb x c then Some O
      else match find_byte c s' with Some i => Some (S i) | None => None end
  end.

(** The prefix of a buffer up to its first NUL, i.e. what a callee sees of [s.data()] when it takes
    a [const char*]. *)
Fixpoint cstr (s : bytes) : bytes :=
  match s with
  | [] => []
  | x :: s' => if byte_eqb x x00 then [] else x :: cstr s'
  end.

(** Decimal digits of a number, most significant first ([std::to_string] of an unsigned integer). *)
Definition digit (n : N) : byte := byte_of_N (48 + n).
Fixpoint dec_digits (fuel : nat) (n : N) : bytes :=
  match fuel with
  | O => []
  | S f => if N.ltb n 10 then [digit n] else dec_digits f (n / 10) ++ [digit (n mod 10)]
  end.
(** 20 digits suffice for a [uint64_t]. *)
Definition to_string_N (n : N) : bytes := dec_digits 20 n.

(** [ndn::toHex] (upper case) and [ndn::fromHex]. *)
Definition hex_digit (n : N) : byte :=
  if N.ltb n 10 then byte_of_N (48 + n) else byte_of_N (55 + n).
Fixpoint to_hex (b : bytes) : bytes :=
  match b with
  | [] => []
  | x :: b' => hex_digit (Byte.to_N x / 16) :: hex_digit (Byte.to_N x mod 16) :: to_hex b'
  end.
Definition hex_value (c : byte) : option N :=
  let n := Byte.to_N c in
  if (48 <=? n)%N && (n <=? 57)%N then Some (n - 48)%N
  else if (65 <=? n)%N && (n <=? 70)%N then Some (n - 55)%N
  else if (97 <=? n)%N && (n <=? 102)%N then Some (n - 87)%N
  else None.
Fixpoint from_hex (b : bytes) : option bytes :=
  match b with
  | [] => Some []
  | [_] => None
  | c :: d :: b' =>
      match hex_value c, hex_value d, from_hex b' with
      | Some h, Some l, Some r => Some (byte_of_N (h * 16 + l) :: r)
      | _, _, _ => None
      end
  end.

(** ASCII lower-casing ([boost::algorithm::to_lower_copy] in the "C" locale). *)
Definition lower_byte (c : byte) : byte :=
  let n := Byte.to_N c in
  if (65 <=? n)%N && (n <=? 90)%N then byte_of_N (n + 32) else c.
Definition to_lower (b : bytes) : bytes := map lower_byte b.
