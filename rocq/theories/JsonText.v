(** The text boost::property_tree's [write_json] writes and its [read_json] reads (external to /repo; follows
    json_parser/detail/{write,parser,narrow_encoding,standard_callbacks}.hpp of Boost 1.71).  ndncert uses it for the
    secrets of a challenge (ca-sqlite.cpp:39-54), the list of profiles (profile-storage.cpp:28-45, 60-70), the CA's
    configuration (ca-configuration.cpp:30-45) and the trust anchors (challenge-possession.cpp:52-62).
    Not modelled: a byte order mark at the start, and the limit the call stack sets to nesting. *)
From Verif Require Export Json.
Local Open Scope N_scope.

(** ** Writing *)
Definition js_hex_upper (n : N) : byte :=
  nth (N.to_nat n) [x30; x31; x32; x33; x34; x35; x36; x37; x38; x39; x41; x42; x43; x44; x45; x46] x30.
(** [create_escapes], for one character *)
Definition js_escape1 (c : byte) : bytes :=
  let n := Byte.to_N c in
  if (n =? 0x20) || (n =? 0x21) || ((0x23 <=? n) && (n <=? 0x2E)) || ((0x30 <=? n) && (n <=? 0x5B)) || (0x5D <=? n) then [c]
  else match c with
       | x08 => [x5c; x62]
       | x0c => [x5c; x66]
       | x0a => [x5c; x6e]
       | x0d => [x5c; x72]
       | x09 => [x5c; x74]
       | x2f => [x5c; x2f]
       | x22 => [x5c; x22]
       | x5c => [x5c; x5c]
       | _ => [x5c; x75; x30; x30; js_hex_upper (n / 16); js_hex_upper (n mod 16)]
       end.
Definition js_quoted (s : bytes) : bytes := x22 :: flat_map js_escape1 s ++ [x22].
Definition js_indent (n : nat) : bytes := repeat x20 (4 * n).
Definition is_nil {A} (l : list A) : bool := match l with [] => true | _ :: _ => false end.
(** [write_json_helper], pretty *)
Fixpoint js_write_node (depth : nat) (t : ptree) : bytes :=
  match t with
  | PT d cs =>
      if Nat.ltb 0 depth && is_nil cs then js_quoted d
      else if Nat.ltb 0 depth && forallb (fun kv => is_nil (fst kv)) cs then
        x5b :: x0a :: (fix go l := match l with
                                      | [] => []
                                      | (_, c) :: l' => js_indent (S depth) ++ js_write_node (S depth) c ++ (if is_nil l' then [] else [x2c]) ++ x0a :: go l'
                                      end) cs ++ js_indent depth ++ [x5d]
      else
        x7b :: x0a :: (fix go l := match l with
                                      | [] => []
                                      | (k, c) :: l' => js_indent (S depth) ++ js_quoted k ++ [x3a; x20] ++ js_write_node (S depth) c ++ (if is_nil l' then [] else [x2c]) ++ x0a :: go l'
                                      end) cs ++ js_indent depth ++ [x7d]
  end.
(** [verify_json] *)
Fixpoint js_verify_node (root : bool) (t : ptree) : bool :=
  match t with
  | PT d cs => (negb root || is_nil d) && (is_nil d || is_nil cs) && forallb (fun kv => js_verify_node false (snd kv)) cs
  end.
Definition write_json (t : ptree) : res bytes := if js_verify_node true t then Ok (js_write_node 0 t ++ [x0a]) else Exn.

(** ** Reading *)
Definition js_is_ws (c : byte) : bool := match c with x20 | x09 | x0a | x0d => true | _ => false end.
Fixpoint js_skip_ws (s : bytes) : bytes :=
  match s with
  | c :: s' => if js_is_ws c then js_skip_ws s' else s
  | [] => []
  end.
Definition js_hex_val (c : byte) : option N :=
  let n := Byte.to_N c in
  if (48 <=? n) && (n <=? 57) then Some (n - 48)
  else if (65 <=? n) && (n <=? 70) then Some (n - 55)
  else if (97 <=? n) && (n <=? 102) then Some (n - 87)
  else None.
Definition js_hex4 (a b c d : byte) : option N :=
  match js_hex_val a, js_hex_val b, js_hex_val c, js_hex_val d with
  | Some a, Some b, Some c, Some d => Some (((a * 16 + b) * 16 + c) * 16 + d)
  | _, _, _, _ => None
  end.
(** The UTF-8 form of a code point *)
Definition js_utf8 (n : N) : bytes :=
  if n <=? 0x7F then [byte_of_N n]
  else if n <=? 0x7FF then [byte_of_N (0xC0 + n / 64); byte_of_N (0x80 + n mod 64)]
  else if n <=? 0xFFFF then [byte_of_N (0xE0 + n / 4096); byte_of_N (0x80 + n / 64 mod 64); byte_of_N (0x80 + n mod 64)]
  else [byte_of_N (0xF0 + n / 262144); byte_of_N (0x80 + n / 4096 mod 64); byte_of_N (0x80 + n / 64 mod 64); byte_of_N (0x80 + n mod 64)].
Definition js_is_high (n : N) : bool := (0xD800 <=? n) && (n <=? 0xDBFF).
Definition js_is_low (n : N) : bool := (0xDC00 <=? n) && (n <=? 0xDFFF).
Definition js_is_trail (c : byte) : bool := (0x80 <=? Byte.to_N c) && (Byte.to_N c <=? 0xBF).
(** How many bytes follow the first byte of a code point *)
Definition js_trailing (c : byte) : option nat :=
  let n := Byte.to_N c in
  if n <? 0x80 then Some 0%nat else if n <? 0xC0 then None else if n <? 0xE0 then Some 1%nat else if n <? 0xF0 then Some 2%nat else if n <? 0xF8 then Some 3%nat else None.
Definition js_escaped (c : byte) : option byte :=
  match c with
  | x22 => Some x22 | x5c => Some x5c | x2f => Some x2f | x62 => Some x08 | x66 => Some x0c | x6e => Some x0a | x72 => Some x0d | x74 => Some x09
  | _ => None
  end.
Definition js_prepend (p : bytes) (o : option (bytes * bytes)) : option (bytes * bytes) := option_map (fun '(t, r) => (p ++ t, r)) o.
(** The rest of a string after its opening quote: its text and what follows the closing quote *)
Fixpoint js_string_rest (s : bytes) : option (bytes * bytes) :=
  match s with
  | [] => None
  | c :: s' =>
      if byte_eqb c x22 then Some ([], s')
      else if byte_eqb c x5c then
        match s' with
        | [] => None
        | e :: s1 =>
            if byte_eqb e x75 then
              match s1 with
              | h1 :: h2 :: h3 :: h4 :: s2 =>
                  match js_hex4 h1 h2 h3 h4 with
                  | None => None
                  | Some n =>
                      if js_is_low n then None
                      else if js_is_high n then
                        match s2 with
                        | b :: u :: l1 :: l2 :: l3 :: l4 :: s3 =>
                            if byte_eqb b x5c && byte_eqb u x75 then
                              match js_hex4 l1 l2 l3 l4 with
                              | Some m => if js_is_low m then js_prepend (js_utf8 (0x10000 + (n - 0xD800) * 1024 + (m - 0xDC00))) (js_string_rest s3) else None
                              | None => None
                              end
                            else None
                        | _ => None
                        end
                      else js_prepend (js_utf8 n) (js_string_rest s2)
                  end
              | _ => None
              end
            else match js_escaped e with Some c => js_prepend [c] (js_string_rest s1) | None => None end
        end
      else
        match js_trailing c, s' with
        | Some 0%nat, _ => js_prepend [c] (js_string_rest s')
        | Some 1%nat, a :: s1 => if js_is_trail a then js_prepend [c; a] (js_string_rest s1) else None
        | Some 2%nat, a :: b :: s1 => if js_is_trail a && js_is_trail b then js_prepend [c; a; b] (js_string_rest s1) else None
        | Some 3%nat, a :: b :: d :: s1 => if js_is_trail a && js_is_trail b && js_is_trail d then js_prepend [c; a; b; d] (js_string_rest s1) else None
        | _, _ => None
        end
  end.
Fixpoint js_take_digits (s : bytes) : bytes * bytes :=
  match s with
  | c :: s' => if is_digit c then let (d, r) := js_take_digits s' in (c :: d, r) else ([], s)
  | [] => ([], [])
  end.
(** A number, kept as text *)
Definition js_number (s : bytes) : option (bytes * bytes) :=
  let (minus, s1) := match s with x2d :: s' => ([x2d], s') | _ => ([], s) end in
  let int := match s1 with
             | x30 :: s' => Some ([x30], s')
             | _ => match js_take_digits s1 with ([], _) => None | (d, r) => Some (d, r) end
             end in
  match int with
  | None => None
  | Some (i, s2) =>
      let frac := match s2 with
                  | x2e :: s' => match js_take_digits s' with ([], _) => None | (d, r) => Some (x2e :: d, r) end
                  | _ => Some ([], s2)
                  end in
      match frac with
      | None => None
      | Some (f, s3) =>
          match s3 with
          | (x65 | x45) as e :: s' =>
              let (sign, s'') := match s' with (x2b | x2d) as c :: r => ([c], r) | _ => ([], s') end in
              match js_take_digits s'' with ([], _) => None | (d, r) => Some (minus ++ i ++ f ++ e :: sign ++ d, r) end
          | _ => Some (minus ++ i ++ f, s3)
          end
      end
  end.
(** [have(c)] or [expect(c)] after white space *)
Definition js_have (c : byte) (s : bytes) : option bytes :=
  match js_skip_ws s with
  | x :: s' => if byte_eqb x c then Some s' else None
  | [] => None
  end.
(** [true], [false] and [null] are kept as text. *)
Fixpoint js_strip (w s : bytes) : option bytes :=
  match w, s with
  | [], _ => Some s
  | a :: w', b :: s' => if byte_eqb a b then js_strip w' s' else None
  | _ :: _, [] => None
  end.
Definition js_word (w s : bytes) : option (bytes * bytes) := option_map (fun r => (w, r)) (js_strip w s).
Definition js_or {A} (a b : option A) : option A := match a with Some _ => a | None => b end.
Definition js_leaf (o : option (bytes * bytes)) : option (ptree * bytes) := option_map (fun '(t, r) => (pt_leaf t, r)) o.
(** [parse_value], with the loops of [parse_object] and [parse_array]; [fuel] bounds the nesting and the number of
    members, [read_json] gives enough. *)
Fixpoint js_value (fuel : nat) (s : bytes) : option (ptree * bytes) :=
  match fuel with
  | O => None
  | S f =>
      match js_skip_ws s with
      | [] => None
      | c :: s1 =>
          if byte_eqb c x7b then
            match js_have x7d s1 with
            | Some s2 => Some (PT [] [], s2)
            | None => js_members f [] s1
            end
          else if byte_eqb c x5b then
            match js_have x5d s1 with
            | Some s2 => Some (PT [] [], s2)
            | None => js_items f [] s1
            end
          else if byte_eqb c x22 then js_leaf (js_string_rest s1)
          else js_leaf (js_or (js_word (bs "true") (c :: s1)) (js_or (js_word (bs "false") (c :: s1)) (js_or (js_word (bs "null") (c :: s1)) (js_number (c :: s1)))))
      end
  end
with js_members (fuel : nat) (acc : list (bytes * ptree)) (s : bytes) : option (ptree * bytes) :=
  match fuel with
  | O => None
  | S f =>
      match js_have x22 s with
      | None => None
      | Some s1 =>
          match js_string_rest s1 with
          | None => None
          | Some (k, s2) =>
              match js_have x3a s2 with
              | None => None
              | Some s3 =>
                  match js_value f s3 with
                  | None => None
                  | Some (t, s4) =>
                      match js_have x2c s4 with
                      | Some s5 => js_members f (acc ++ [(k, t)]) s5
                      | None => option_map (fun s5 => (PT [] (acc ++ [(k, t)]), s5)) (js_have x7d s4)
                      end
                  end
              end
          end
      end
  end
with js_items (fuel : nat) (acc : list (bytes * ptree)) (s : bytes) : option (ptree * bytes) :=
  match fuel with
  | O => None
  | S f =>
      match js_value f s with
      | None => None
      | Some (t, s1) =>
          match js_have x2c s1 with
          | Some s2 => js_items f (acc ++ [([], t)]) s2
          | None => option_map (fun s2 => (PT [] (acc ++ [([], t)]), s2)) (js_have x5d s1)
          end
      end
  end.
(** [read_json]: one value, then nothing but white space.  [None]: throws. *)
Definition read_json (s : bytes) : option ptree :=
  match js_value (S (length s)) s with
  | Some (t, r) => match js_skip_ws r with [] => Some t | _ :: _ => None end
  | None => None
  end.

(** The secrets of a challenge as a tree (a JsonSection filled by [put], ca-request-state.hpp:60-85) and back. *)
Definition secrets_tree (l : list (bytes * bytes)) : ptree := PT [] (map (fun kv => (fst kv, pt_leaf (snd kv))) l).
Definition secrets_of_tree (t : ptree) : list (bytes * bytes) := map (fun kv => (fst kv, pt_data (snd kv))) (pt_children t).
