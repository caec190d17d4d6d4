(** boost::property_tree::ptree as ndncert uses it (external to /repo): a data string and a list of
    (key, child) pairs.  All paths used by ndncert are single keys without a dot. *)
From Verif Require Export Types.
Local Open Scope N_scope.

Inductive ptree : Type := PT (data : bytes) (children : list (bytes * ptree)).
Definition pt_data (t : ptree) : bytes := let (d, _) := t in d.
Definition pt_children (t : ptree) : list (bytes * ptree) := let (_, c) := t in c.
Definition pt_leaf (d : bytes) : ptree := PT d [].

(** [get_child_optional(key)]: the first child with that key. *)
Fixpoint assoc_child (k : bytes) (l : list (bytes * ptree)) : option ptree :=
  match l with
  | [] => None
  | (k', t) :: l' => if bytes_eqb k k' then Some t else assoc_child k l'
  end.
Definition pt_child (k : bytes) (t : ptree) : option ptree := assoc_child k (pt_children t).
(** [get<std::string>(key, dflt)] *)
Definition pt_get (k : bytes) (dflt : bytes) (t : ptree) : bytes :=
  match pt_child k t with Some c => pt_data c | None => dflt end.

Definition is_digit (c : byte) : bool := (48 <=? Byte.to_N c) && (Byte.to_N c <=? 57).
(** Decimal digits; [None] for an empty string or another character. *)
Fixpoint parse_digits (s : bytes) (acc : N) : option N :=
  match s with
  | [] => Some acc
  | c :: s' => if is_digit c then parse_digits s' (acc * 10 + (Byte.to_N c - 48)) else None
  end.
Definition parse_dec (s : bytes) : option N := match s with [] => None | _ :: _ => parse_digits s 0 end.
(** The stream translator for [int]: an optional sign and decimal digits, within range.  Surrounding
    white space, which the stream would skip, is treated as a failure. *)
Definition parse_int (s : bytes) : option Z :=
  let n := match s with
           | x2d :: s' => option_map (fun n => (- Z.of_N n)%Z) (parse_dec s')
           | x2b :: s' => option_map Z.of_N (parse_dec s')
           | _ => option_map Z.of_N (parse_dec s)
           end in
  match n with
  | Some z => if ((- 2 ^ 31 <=? z) && (z <? 2 ^ 31))%Z then Some z else None
  | None => None
  end.
(** The stream translator for [size_t]: a minus sign negates modulo 2^64. *)
Definition parse_size (s : bytes) : option N :=
  let '(neg, d) := match s with
                   | x2d :: s' => (true, parse_dec s')
                   | x2b :: s' => (false, parse_dec s')
                   | _ => (false, parse_dec s)
                   end in
  match d with
  | Some n => if n <? 2 ^ 64 then Some (if neg then (2 ^ 64 - n) mod 2 ^ 64 else n) else None
  | None => None
  end.
(** [get<int>(key, dflt)] and [get_optional<size_t>(key)]: a value that cannot be converted counts as
    absent. *)
Definition pt_get_int (k : bytes) (dflt : Z) (t : ptree) : Z :=
  match pt_child k t with
  | Some c => match parse_int (pt_data c) with Some z => z | None => dflt end
  | None => dflt
  end.
Definition pt_get_size (k : bytes) (t : ptree) : option N :=
  match pt_child k t with Some c => parse_size (pt_data c) | None => None end.

(** [put(key, value)]: replaces the data of the first child with that key, or appends a child. *)
Fixpoint put_child (k d : bytes) (l : list (bytes * ptree)) : list (bytes * ptree) :=
  match l with
  | [] => [(k, pt_leaf d)]
  | (k', t) :: l' => if bytes_eqb k k' then (k', PT d (pt_children t)) :: l' else (k', t) :: put_child k d l'
  end.
Definition pt_put (k d : bytes) (t : ptree) : ptree := PT (pt_data t) (put_child k d (pt_children t)).
(** [push_back({key, child})], and [add_child("", child)] in a build without assertions. *)
Definition pt_push (k : bytes) (c t : ptree) : ptree := PT (pt_data t) (pt_children t ++ [(k, c)]).
Definition pt_empty : ptree := PT [] [].

(** [std::to_string] / operator<< of a signed integer *)
Definition to_string_Z (z : Z) : bytes :=
  if (z <? 0)%Z then x2d :: to_string_N (Z.to_N (- z)) else to_string_N (Z.to_N z).
