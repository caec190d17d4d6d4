(** Packets, certificates, and the external code the model takes as an oracle: OpenSSL, the ndn-cxx
    certificate codec and key chain, and name URIs.  No law about the oracles is assumed here; theorems
    that need one take [env_laws E] (or a part of it) as a hypothesis. *)
From Verif Require Export Name.
From Coq Require Export ZArith.
Local Open Scope N_scope.

(** Nanoseconds per second; [time::system_clock] counts nanoseconds. *)
Definition sec (n : Z) : Z := (n * 1000000000)%Z.

(** [ndn::security::Certificate] / the Data packet holding it.
    [c_iskey]: ContentType is Key; [c_content]: the value of Content ([None]: no Content);
    [c_validity]: notBefore and notAfter, [None] if absent; [c_keyloc]: the key locator name, [None]
    if there is none or it is not a name; [c_extra]: whatever else is on the wire. *)
Record cert : Type := Cert {
  c_name : name;
  c_iskey : bool;
  c_content : option bytes;
  c_validity : option (Z * Z);
  c_keyloc : option name;
  c_extra : bytes;
  c_sig : bytes
}.

(** What a signature covers. *)
Inductive msg : Type :=
| MRaw (b : bytes)
| MInterest (n : name) (params : bytes)
| MData (n : name) (content : bytes) (fresh : Z) (final : option comp)
| MCert (n : name) (iskey : bool) (content : option bytes) (validity : option (Z * Z))
        (keyloc : option name) (extra : bytes).

(** An Interest.  [i_params]: the value of ApplicationParameters, [None] if absent; [i_sig]: the
    signature, [None] for an unsigned Interest.  Fields ndncert never looks at are left out. *)
Record interest : Type := Interest {
  i_name : name;
  i_params : option bytes;
  i_sig : option bytes
}.

(** A Data packet that is not a certificate: [d_content] is the value of Content, [d_final] the
    FinalBlockId; [d_fresh] the freshness period in nanoseconds. *)
Record data : Type := Data {
  d_name : name;
  d_content : bytes;
  d_fresh : Z;
  d_final : option comp;
  d_sig : bytes
}.

(** Oracles.  The [Z] results of [o_ecdh] and [o_hkdf] are OpenSSL return codes (1 = success, 0 or
    negative = failure); the byte string is the output buffer afterwards. *)
Record env : Type := Env {
  o_aes_enc : bytes -> bytes -> bytes -> bytes -> bytes * bytes;  (* key, iv, ad, plaintext |-> ciphertext, tag *)
  o_aes_dec : bytes -> bytes -> bytes -> bytes -> bytes -> option bytes;
                                                (* key, iv, ad, ciphertext, tag |-> plaintext if the tag verifies *)
  o_ecdh_pub : bytes -> bytes;                  (* private key |-> public key octets *)
  o_ecdh : bytes -> bytes -> Z * bytes;         (* own private key, peer octets |-> code, secret *)
  o_hkdf : bytes -> bytes -> bytes -> Z * bytes;(* secret, salt, info |-> code, 16-byte key *)
  o_hmac : bytes -> bytes -> bytes;             (* key, data |-> HMAC-SHA256 *)
  o_sha256 : bytes -> bytes;
  o_pub : bytes -> bytes;                       (* signing key |-> public key bytes *)
  o_sign : bytes -> msg -> bytes;               (* signing key, message |-> signature *)
  o_verify : bytes -> msg -> bytes -> bool;     (* public key bytes, message, signature *)
  o_pubkey_ok : bytes -> bool;                  (* transform::PublicKey::loadPkcs8 succeeds *)
  o_cert_wire : cert -> bytes;                  (* value of the Data TLV of a certificate *)
  o_cert_unwire : bytes -> option cert;         (* Data::wireDecode, [None] = throws *)
  o_to_uri : name -> bytes;                     (* Name::toUri *)
  o_of_uri : bytes -> option name;              (* Name(std::string), [None] = throws *)
  o_b64 : bytes -> bytes;                       (* transform::base64Encode *)
  o_unb64 : bytes -> option bytes               (* transform::base64Decode, [None] = throws *)
}.

(** Signed portions. *)
Definition cert_msg (c : cert) : msg :=
  MCert (c_name c) (c_iskey c) (c_content c) (c_validity c) (c_keyloc c) (c_extra c).
Definition data_msg (d : data) : msg := MData (d_name d) (d_content d) (d_fresh d) (d_final d).
(** The signed portion of an Interest leaves out the ParametersSha256Digest component. *)
Definition strip_digest (n : name) : name := filter (fun c => negb (t_type c =? T_ParamsDigest)) n.
Definition interest_msg (i : interest) : msg :=
  MInterest (strip_digest (i_name i)) (match i_params i with Some p => p | None => [] end).

(** [Certificate::getPublicKey]: the content value. *)
Definition public_key (c : cert) : bytes := match c_content c with Some k => k | None => [] end.

Section WithEnv.
  Context (E : env).

  (** [ndn::security::verifySignature(data, cert)], [verifySignature(interest, cert)]: [false] for an
      unsigned packet or an unusable key. *)
  Definition verify_cert (c by_ : cert) : bool := o_verify E (public_key by_) (cert_msg c) (c_sig c).
  Definition verify_data (d : data) (by_ : cert) : bool := o_verify E (public_key by_) (data_msg d) (d_sig d).
  Definition verify_interest (i : interest) (by_ : cert) : bool :=
    match i_sig i with
    | None => false
    | Some s => o_verify E (public_key by_) (interest_msg i) s
    end.

  (** The Data TLV of a certificate, and [Data::wireDecode]. *)
  Definition cert_tlv (c : cert) : tlv := Tlv T_Data (o_cert_wire E c).
  Definition data_decode (t : tlv) : option cert :=
    if t_type t =? T_Data then o_cert_unwire E (t_val t) else None.
  (** [Certificate(const Block&)]: decodes, then checks name, content type and content. *)
  Definition cert_ok (c : cert) : bool :=
    valid_cert_name (c_name c) && c_iskey c &&
    match c_content c with Some (_ :: _) => true | _ => false end.
  Definition cert_decode (t : tlv) : option cert :=
    match data_decode t with
    | Some c => if cert_ok c then Some c else None
    | None => None
    end.
  (** [Data::getFullName]: the name and the implicit SHA-256 digest of the wire. *)
  Definition full_name (c : cert) : name :=
    c_name c ++ [Tlv T_ImplicitDigest (o_sha256 E (enc_tlv (cert_tlv c)))].
  (** [ndn::io::save] and [ndn::io::load<Certificate>] with the default base64 encoding; loading returns
      a null pointer on any error and ignores bytes after the first TLV. *)
  Definition io_save (c : cert) : bytes := o_b64 E (enc_tlv (cert_tlv c)).
  Definition io_load (s : bytes) : option cert :=
    match o_unb64 E s with
    | Some w => match dec_elem w with
                | Some (t, _) => cert_decode t
                | None => None
                end
    | None => None
    end.
End WithEnv.

(** [Certificate::isValid(now)]; throws without a validity period. *)
Definition cert_is_valid (now : Z) (c : cert) : res bool :=
  match c_validity c with
  | None => Exn
  | Some (nb, na) => Ok ((nb <=? now)%Z && (now <=? na)%Z)
  end.

(** [ValidityPeriod(notBefore, notAfter)]: notBefore is rounded up to a second, notAfter down. *)
Definition mk_validity (nb na : Z) : Z * Z :=
  (sec (- ((- nb) / sec 1)), sec (na / sec 1))%Z.

(** Certificates the wire format can carry: encodable names, whole seconds from 1970 to the end of the
    [system_clock] range. *)
Definition wf_cert (c : cert) : Prop :=
  wf_name (c_name c) /\
  (forall n, c_keyloc c = Some n -> wf_name n) /\
  (forall nb na, c_validity c = Some (nb, na) ->
     (nb mod sec 1 = 0 /\ na mod sec 1 = 0 /\ 0 <= nb < 2 ^ 63 /\ 0 <= na < 2 ^ 63)%Z).

(** ** Laws *)

(** AES-GCM as an abstract authenticated cipher: decryption inverts encryption, lengths are preserved,
    the tag has 16 bytes, and a verifying tag is the one encryption computes.  Nothing is assumed about
    forgery. *)
Record aes_laws (E : env) : Prop := {
  l_aes_dec_enc : forall k iv ad pt ct tag,
    o_aes_enc E k iv ad pt = (ct, tag) -> o_aes_dec E k iv ad ct tag = Some pt;
  l_aes_len : forall k iv ad pt ct tag,
    o_aes_enc E k iv ad pt = (ct, tag) -> length ct = length pt /\ length tag = 16%nat;
  l_aes_dec_inv : forall k iv ad ct tag pt,
    o_aes_dec E k iv ad ct tag = Some pt -> o_aes_enc E k iv ad pt = (ct, tag)
}.

(** Key agreement between honest peers. *)
Record ecdh_laws (E : env) : Prop := {
  l_ecdh_sym : forall a b, o_ecdh E a (o_ecdh_pub E b) = o_ecdh E b (o_ecdh_pub E a);
  l_ecdh_ok : forall a b, fst (o_ecdh E a (o_ecdh_pub E b)) = 1%Z;
  l_ecdh_pub_nonempty : forall a, o_ecdh_pub E a <> [];
  l_ecdh_pub_len : forall a, blen (o_ecdh_pub E a) < 2 ^ 16
}.

Record hash_laws (E : env) : Prop := {
  l_hkdf_ok : forall s salt info, fst (o_hkdf E s salt info) = 1%Z;
  l_hkdf_len : forall s salt info, length (snd (o_hkdf E s salt info)) = 16%nat;
  l_hmac_len : forall k d, length (o_hmac E k d) = 32%nat;
  l_sha_len : forall d, length (o_sha256 E d) = 32%nat
}.

Record sig_laws (E : env) : Prop := {
  l_sign_verify : forall sk m, o_verify E (o_pub E sk) m (o_sign E sk m) = true;
  l_pub_ok : forall sk, o_pubkey_ok E (o_pub E sk) = true;
  l_pub_nonempty : forall sk, o_pub E sk <> []
}.

(** The bytes that occur in a name URI: letters, digits, - . _ ~ % / and = *)
Definition uri_char (b : byte) : bool :=
  let n := Byte.to_N b in
  ((48 <=? n) && (n <=? 57)) || ((65 <=? n) && (n <=? 90)) || ((97 <=? n) && (n <=? 122)) ||
  (n =? 45) || (n =? 46) || (n =? 95) || (n =? 126) || (n =? 37) || (n =? 47) || (n =? 61).

(** Text that is one component of a URI as it stands: letters, digits, - _ . and @, not only dots. *)
Definition plain_char (b : byte) : bool :=
  let n := Byte.to_N b in
  ((48 <=? n) && (n <=? 57)) || ((65 <=? n) && (n <=? 90)) || ((97 <=? n) && (n <=? 122)) ||
  (n =? 45) || (n =? 46) || (n =? 95) || (n =? 64).
Definition plain_text (s : bytes) : Prop :=
  forallb plain_char s = true /\ existsb (fun b => negb (Byte.to_N b =? 46)) s = true /\ blen s < 2 ^ 64.

Record codec_laws (E : env) : Prop := {
  l_cert_codec : forall c, wf_cert c -> o_cert_unwire E (o_cert_wire E c) = Some c;
  l_cert_wf : forall b c, o_cert_unwire E b = Some c -> wf_cert c;
  l_cert_keeps_wire : forall b c, o_cert_unwire E b = Some c -> o_cert_wire E c = b;
  l_b64 : forall b, o_unb64 E (o_b64 E b) = Some b;
  l_b64_nonempty : forall b, b <> [] -> o_b64 E b <> [];
  l_uri : forall n, wf_name n -> o_of_uri E (o_to_uri E n) = Some n;
  l_uri_empty : o_of_uri E [] = Some [];
  l_uri_wf : forall s n, o_of_uri E s = Some n -> wf_name n;
  l_uri_plain : forall n, forallb uri_char (o_to_uri E n) = true;
  l_uri_comp : forall s, plain_text s -> o_of_uri E s = Some [gc s]
}.

Record env_laws (E : env) : Prop := {
  laws_aes : aes_laws E;
  laws_ecdh : ecdh_laws E;
  laws_hash : hash_laws E;
  laws_sig : sig_laws E;
  laws_codec : codec_laws E
}.
