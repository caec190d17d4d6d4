(** A concrete environment that meets every law of [env_laws] (proved in ToyEnvFacts.v).  It shows that
    the laws are consistent and lets theorems be tried on concrete histories.  It is not a model of real
    cryptography. *)
From Verif Require Export CaServer Requester CaTrace ProfileStorage.
Local Open Scope N_scope.

(** ** Hashes *)
(** Two running sums, written out in four bytes each and padded to [n] bytes. *)
Fixpoint sums (a c : N) (b : bytes) : N * N :=
  match b with
  | [] => (a, c)
  | x :: b' => let a' := a + Byte.to_N x + 1 in sums a' (c + a') b'
  end.
Definition toy_hash (n : nat) (b : bytes) : bytes :=
  let (a, c) := sums 7 0 b in firstn n (be_enc 4 c ++ be_enc 4 a ++ repeat x5a n).

(** Self-delimiting encoding of a byte string. *)
Fixpoint delim (b : bytes) : bytes :=
  match b with
  | [] => [x00]
  | x :: b' => x01 :: x :: delim b'
  end.
Fixpoint undelim (b : bytes) : option (bytes * bytes) :=
  match b with
  | x00 :: r => Some ([], r)
  | x01 :: b1 =>
      match b1 with
      | x :: r => match undelim r with Some (v, r') => Some (x :: v, r') | None => None end
      | [] => None
      end
  | _ => None
  end.

Definition enc_comp (c : comp) : bytes := be_enc 4 (t_type c) ++ delim (t_val c).
Fixpoint enc_name (n : name) : bytes :=
  match n with
  | [] => [x00]
  | c :: n' => x01 :: enc_comp c ++ enc_name n'
  end.
Fixpoint dec_name (fuel : nat) (b : bytes) : option (name * bytes) :=
  match fuel with
  | O => None
  | S f =>
      match b with
      | x00 :: r => Some ([], r)
      | x01 :: r =>
          match take_be 4 r with
          | Some (ty, r1) =>
              match undelim r1 with
              | Some (v, r2) => match dec_name f r2 with
                                | Some (n, r3) => Some (Tlv ty v :: n, r3)
                                | None => None
                                end
              | None => None
              end
          | None => None
          end
      | _ => None
      end
  end.

Definition wf_compb (c : comp) : bool := (0 <? t_type c) && (t_type c <=? max_type) && (blen (t_val c) <? 2 ^ 64).
Definition wf_nameb (n : name) : bool := forallb wf_compb n.
Definition time_ok (t : Z) : bool := ((t mod sec 1 =? 0) && (0 <=? t) && (t <? 2 ^ 63))%Z.
Definition wf_certb (c : cert) : bool :=
  wf_nameb (c_name c) &&
  match c_keyloc c with Some n => wf_nameb n | None => true end &&
  match c_validity c with Some (nb, na) => time_ok nb && time_ok na | None => true end.

(** ** Certificates *)
Definition enc_opt {A} (f : A -> bytes) (o : option A) : bytes :=
  match o with Some a => x01 :: f a | None => [x00] end.
Definition dec_opt {A} (f : bytes -> option (A * bytes)) (b : bytes) : option (option A * bytes) :=
  match b with
  | x00 :: r => Some (None, r)
  | x01 :: r => match f r with Some (a, r') => Some (Some a, r') | None => None end
  | _ => None
  end.
Definition enc_time (t : Z) : bytes := be_enc 8 (Z.to_N t).
Definition dec_time (b : bytes) : option (Z * bytes) :=
  match take_be 8 b with Some (n, r) => Some (Z.of_N n, r) | None => None end.
Definition enc_period (v : Z * Z) : bytes := enc_time (fst v) ++ enc_time (snd v).
Definition dec_period (b : bytes) : option ((Z * Z) * bytes) :=
  match dec_time b with
  | Some (x, r) => match dec_time r with Some (y, r') => Some ((x, y), r') | None => None end
  | None => None
  end.
Definition dec_names (b : bytes) : option (name * bytes) := dec_name (length b) b.

Definition toy_cert_wire (c : cert) : bytes :=
  enc_name (c_name c) ++ (if c_iskey c then x01 else x00) :: enc_opt delim (c_content c) ++
  enc_opt enc_period (c_validity c) ++ enc_opt enc_name (c_keyloc c) ++ delim (c_extra c) ++ delim (c_sig c).
Definition toy_cert_parse (b : bytes) : option cert :=
  match dec_names b with
  | Some (n, k :: b1) =>
      match dec_opt undelim b1 with
      | Some (content, b2) =>
          match dec_opt dec_period b2 with
          | Some (v, b3) =>
              match dec_opt dec_names b3 with
              | Some (kl, b4) =>
                  match undelim b4 with
                  | Some (ex, b5) =>
                      match undelim b5 with
                      | Some (sg, _) => Some (Cert n (byte_eqb k x01) content v kl ex sg)
                      | None => None
                      end
                  | None => None
                  end
              | None => None
              end
          | None => None
          end
      | None => None
      end
  | _ => None
  end.
Definition toy_cert_unwire (b : bytes) : option cert :=
  match toy_cert_parse b with
  | Some c => if wf_certb c && bytes_eqb (toy_cert_wire c) b then Some c else None
  | None => None
  end.

(** ** Signatures *)
Definition ser_msg (m : msg) : bytes :=
  match m with
  | MRaw b => x00 :: b
  | MInterest n p => x01 :: enc_name n ++ p
  | MData n c f fin => x02 :: enc_name n ++ delim c ++ be_enc 8 (Z.to_N f) ++ enc_opt enc_comp fin
  | MCert n k c v kl ex =>
      x03 :: enc_name n ++ (if k then x01 else x00) :: enc_opt delim c ++ enc_opt enc_period v ++
      enc_opt enc_name kl ++ ex
  end.
Definition toy_pub (sk : bytes) : bytes := x30 :: sk.
Definition toy_sign (sk : bytes) (m : msg) : bytes := toy_hash 32 (delim sk ++ ser_msg m).
Definition toy_verify (pk : bytes) (m : msg) (s : bytes) : bool :=
  match pk with
  | x30 :: sk => bytes_eqb s (toy_sign sk m)
  | _ => false
  end.
Definition toy_pubkey_ok (pk : bytes) : bool := match pk with x30 :: _ => true | _ => false end.

(** ** Key agreement and encryption *)
Definition toy_ecdh_pub (sk : bytes) : bytes := x04 :: be_enc 8 (be_dec sk).
Definition toy_ecdh (sk peer : bytes) : Z * bytes :=
  match peer with
  | x04 :: p => if Nat.eqb (length p) 8
                then (1%Z, be_enc 8 ((be_dec sk mod 256 ^ 8) + be_dec p))
                else (0%Z, [])
  | xff :: _ => ((-1)%Z, repeat x00 32)
  | _ => (0%Z, [])
  end.
Definition toy_tag (k iv ad pt : bytes) : bytes := toy_hash 16 (delim k ++ delim iv ++ delim ad ++ pt).
Definition toy_aes_enc (k iv ad pt : bytes) : bytes * bytes := (pt, toy_tag k iv ad pt).
Definition toy_aes_dec (k iv ad ct tag : bytes) : option bytes :=
  if bytes_eqb tag (toy_tag k iv ad ct) then Some ct else None.

(** ** URIs (the format of ndn-cxx) *)
Definition unreserved (b : byte) : bool :=
  let n := Byte.to_N b in
  ((48 <=? n) && (n <=? 57)) || ((65 <=? n) && (n <=? 90)) || ((97 <=? n) && (n <=? 122)) ||
  (n =? 45) || (n =? 46) || (n =? 95) || (n =? 126).
Fixpoint escape (b : bytes) : bytes :=
  match b with
  | [] => []
  | x :: b' => if unreserved x then x :: escape b'
               else x25 :: hex_digit (Byte.to_N x / 16) :: hex_digit (Byte.to_N x mod 16) :: escape b'
  end.
Fixpoint unescape (b : bytes) : option bytes :=
  match b with
  | [] => Some []
  | x25 :: b1 =>
      match b1 with
      | h :: b2 =>
          match b2 with
          | l :: b' => match hex_value h, hex_value l, unescape b' with
                       | Some vh, Some vl, Some r => Some (byte_of_N (vh * 16 + vl) :: r)
                       | _, _, _ => None
                       end
          | [] => None
          end
      | [] => None
      end
  | x :: b' => match unescape b' with Some r => Some (x :: r) | None => None end
  end.
Definition all_dots (b : bytes) : bool := forallb (fun x => byte_eqb x x2e) b.
Definition value_uri (v : bytes) : bytes := if all_dots v then [x2e; x2e; x2e] ++ v else escape v.
Definition uri_value (s : bytes) : option bytes :=
  match unescape s with
  | Some u => if all_dots u then (if Nat.ltb (length u) 3 then None else Some (skipn 3 u)) else Some u
  | None => None
  end.
Definition comp_uri (c : comp) : bytes :=
  if t_type c =? T_Generic then value_uri (t_val c)
  else to_string_N (t_type c) ++ x3d :: value_uri (t_val c).
Definition uri_comp (s : bytes) : option comp :=
  match find_byte x3d s with
  | Some i => match parse_dec (firstn i s), uri_value (skipn (S i) s) with
              | Some ty, Some v => Some (Tlv ty v)
              | _, _ => None
              end
  | None => match uri_value s with Some v => Some (gc v) | None => None end
  end.
Definition toy_to_uri (n : name) : bytes :=
  match n with
  | [] => [x2f]
  | _ :: _ => flat_map (fun c => x2f :: comp_uri c) n
  end.
Definition toy_of_uri (s : bytes) : option name :=
  match all_some (map uri_comp (filter nonempty (split_on SLASH s))) with
  | Some n => if wf_nameb n then Some n else None
  | None => None
  end.

Definition toy : env :=
  Env toy_aes_enc toy_aes_dec toy_ecdh_pub toy_ecdh
      (fun s salt info => (1%Z, toy_hash 16 (delim s ++ delim salt ++ info)))
      (fun k d => toy_hash 32 (delim k ++ d))
      (toy_hash 32) toy_pub toy_sign toy_verify toy_pubkey_ok toy_cert_wire toy_cert_unwire
      toy_to_uri toy_of_uri to_hex from_hex.
