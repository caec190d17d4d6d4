(** The messages of NDNCERT 0.3 as they appear on the wire, with every number written out.  Nothing here uses the
    encoders of the model, except for names ([name_wire], see [wire_name]) and for the fields of a certificate. *)
From Verif Require Export Spec_Trace Spec_Requester.
Local Open Scope N_scope.

(** ** NDN TLV *)
Definition big_endian (b : bytes) : N := fold_left (fun a x => a * 256 + Byte.to_N x) b 0.
(** A TLV-TYPE or TLV-LENGTH. *)
Inductive var_number : N -> bytes -> Prop :=
| vn_1 : forall x, Byte.to_N x < 253 -> var_number (Byte.to_N x) [x]
| vn_3 : forall b, length b = 2%nat -> 253 <= big_endian b -> var_number (big_endian b) (xfd :: b)
| vn_5 : forall b, length b = 4%nat -> 65536 <= big_endian b -> var_number (big_endian b) (xfe :: b)
| vn_9 : forall b, length b = 8%nat -> 4294967296 <= big_endian b -> var_number (big_endian b) (xff :: b).
(** The elements, given as TLV-TYPE and TLV-VALUE, one after the other. *)
Inductive message : list (N * bytes) -> bytes -> Prop :=
| msg_nil : message [] []
| msg_cons : forall ty v l t n w, var_number ty t -> var_number (blen v) n -> message l w -> message ((ty, v) :: l) (t ++ n ++ v ++ w).
(** A non-negative integer: 1, 2, 4 or 8 bytes, and no more than needed. *)
Definition integer (n : N) (v : bytes) : Prop :=
  big_endian v = n /\ (length v = 1%nat \/ (length v = 2%nat /\ 256 <= n) \/ (length v = 4%nat /\ 65536 <= n) \/ (length v = 8%nat /\ 4294967296 <= n)).
(** A name: TLV type 7, around its components. *)
Definition wire_name (n : name) (w : bytes) : Prop :=
  exists v, message (map (fun c => (t_type c, t_val c)) n) v /\ message [(7, v)] w.
(** A certificate is a Data packet. *)
Definition wire_cert (E : env) (c : cert) (w : bytes) : Prop := message [(6, o_cert_wire E c)] w.

(** Name of a certificate with the digest of its wire; 1 is the type of an implicit digest. *)
Definition wire_full_name (E : env) (c : cert) (n : name) : Prop := forall w, wire_cert E c w -> n = c_name c ++ [Tlv 1 (o_sha256 E w)].

(** ** Messages of the CA *)
Definition wire_error (code : N) (text w : bytes) : Prop := exists c, integer code c /\ message [(171, c); (173, text)] w.
(** The CA profile: prefix, text, names of the PROBE parameters, longest validity period in seconds, certificate. *)
Definition wire_info (E : env) (prefix : name) (text : bytes) (keys : list bytes) (period : N) (c : cert) (w : bytes) : Prop :=
  exists p ce, integer period p /\ wire_cert E c ce /\
    message ([(129, name_wire prefix); (131, text)] ++ map (pair 133) keys ++ [(139, p); (137, ce)]) w.
(** An offered name, with the longest allowed suffix. *)
Definition wire_offer (max : option N) (n : name) (w : bytes) : Prop :=
  match max with
  | None => w = name_wire n
  | Some k => exists m w', integer k m /\ message [(143, m)] w' /\ w = name_wire n ++ w'
  end.
Definition wire_probe (names : list name) (max : option N) (redirects : list name) (w : bytes) : Prop :=
  exists offers, Forall2 (wire_offer max) names offers /\ message (map (pair 141) offers ++ map (fun n => (179, name_wire n)) redirects) w.
(** The reply to an accepted NEW or REVOKE: ECDH key, salt, request ID, challenges. *)
Definition wire_new (pub salt id : bytes) (challenges : list bytes) (w : bytes) : Prop :=
  length salt = 32%nat /\ length id = 8%nat /\ message ([(145, pub); (149, salt); (151, id)] ++ map (pair 153) challenges) w.
(** An encrypted message: IV, tag, ciphertext. *)
Definition wire_sealed (E : env) (key id plain w : bytes) : Prop :=
  exists iv ct tag, length iv = 12%nat /\ length tag = 16%nat /\ o_aes_enc E key iv id plain = (ct, tag) /\
    message [(157, iv); (175, tag); (159, ct)] w.
(** What a CHALLENGE reply says under encryption.  Status 1: the challenge goes on. *)
Definition wire_continued (word : bytes) (tries time : N) (nonce : option bytes) (w : bytes) : Prop :=
  exists t1 t2, integer tries t1 /\ integer time t2 /\
    message ([(155, [x01]); (163, word); (165, t1); (167, t2)] ++ match nonce with Some v => [(133, bs "nonce"); (135, v)] | None => [] end) w.
(** Status 3: success; an issued certificate is named together with the forwarding hint. *)
Definition wire_success (issued : option (name * name)) (w : bytes) : Prop :=
  message ([(155, [x03])] ++ match issued with Some (c, hint) => [(169, name_wire c); (30, name_wire hint)] | None => [] end) w.

(** The Interest is for <prefix>/CA/<verb>; 8 is the type of an ordinary name component. *)
Definition to_verb (prefix : name) (verb : bytes) (x : interest) : Prop :=
  exists rest, i_name x = prefix ++ [Tlv 8 (bs "CA"); Tlv 8 verb] ++ rest.

(** What a CA with the configuration [g] may answer to an Interest [x] when the certificates in [asked] are requested:
    an issued certificate has the key name of one of them. *)
Inductive ca_message (E : env) (g : ca_cfg) (asked : cert -> Prop) (x : interest) : bytes -> Prop :=
| cm_error : forall code text w, 1 <= code <= 8 -> blen text <= 128 -> wire_error code text w -> ca_message E g asked x w
| cm_version : forall v, blen v <= 8 -> to_verb (p_prefix (cfp g)) (bs "INFO") x ->
    ca_message E g asked x (name_wire (p_prefix (cfp g) ++ [Tlv 8 (bs "CA"); Tlv 8 (bs "INFO"); Tlv 54 v]))
| cm_probe : forall suffixes redirects w, to_verb (p_prefix (cfp g)) (bs "PROBE") x ->
    Forall (fun n => exists c policy, In (Some c, policy) (cf_redirect (cf g)) /\ wire_full_name E c n) redirects ->
    wire_probe (map (app (p_prefix (cfp g))) suffixes) (p_maxsuffix (cfp g)) redirects w -> ca_message E g asked x w
| cm_new : forall verb sk salt id w, verb = bs "NEW" \/ verb = bs "REVOKE" -> to_verb (p_prefix (cfp g)) verb x ->
    wire_new (o_ecdh_pub E sk) salt id (p_challenges (cfp g)) w -> ca_message E g asked x w
| cm_continued : forall key id word tries time nonce plain w, to_verb (p_prefix (cfp g)) (bs "CHALLENGE") x ->
    In word [bs "need-code"; bs "wrong-code"; bs "need-proof"] -> 1 <= tries <= 3 ->
    (word = bs "need-proof" <-> nonce <> None) -> (forall v, nonce = Some v -> length v = 16%nat) ->
    wire_continued word tries time nonce plain -> wire_sealed E key id plain w -> ca_message E g asked x w
| cm_success : forall key id issued plain w, to_verb (p_prefix (cfp g)) (bs "CHALLENGE") x ->
    (forall c hint, issued = Some (c, hint) -> hint = p_fwd (cfp g) /\ exists r v, asked r /\ blen v <= 8 /\ c = key_name_of (c_name r) ++ [Tlv 8 (bs "NDNCERT"); Tlv 54 v]) ->
    wire_success issued plain -> wire_sealed E key id plain w -> ca_message E g asked x w.

(** The certificates of the pending requests. *)
Definition asked_for {S} (ops : store_ops S) (s : ca_state S) (c : cert) : Prop := exists id r, pending ops s id = Some r /\ c = rq_cert r.

(** ** Messages of the requester *)
(** Name and parameters of an Interest; 2 is the type of the digest of the parameters. *)
Definition interest_to (prefix : name) (comps : list bytes) (x : interest) (w : bytes) : Prop :=
  (exists digest, i_name x = prefix ++ map (Tlv 8) (bs "CA" :: comps) ++ [Tlv 2 digest]) /\ i_params x = Some w.
Definition wire_pairs (m : mmap) (w : bytes) : Prop := message (flat_map (fun kv => [(133, fst kv); (135, snd kv)]) m) w.
(** The parameters of NEW (147) and REVOKE (177). *)
Definition wire_request (E : env) (ty : N) (pub : bytes) (c : cert) (w : bytes) : Prop :=
  exists ce, wire_cert E c ce /\ message [(145, pub); (ty, ce)] w.
(** The parameters of CHALLENGE under encryption: the challenge (not in the second message of the possession
    challenge) and one parameter (not in the first message of the pin challenge). *)
Inductive wire_answer : bytes -> bytes -> Prop :=
| wa_pin_start : forall w, message [(161, bs "pin")] w -> wire_answer (bs "pin") w
| wa_email_start : forall a w, message [(161, bs "email"); (133, bs "email"); (135, a)] w -> wire_answer (bs "email") w
| wa_code : forall ty code w, ty = bs "pin" \/ ty = bs "email" -> message [(161, ty); (133, bs "code"); (135, code)] w -> wire_answer ty w
| wa_credential : forall d w, message [(161, bs "Possession"); (133, bs "issued-cert"); (135, d)] w -> wire_answer (bs "possession") w
| wa_proof : forall p w, message [(133, bs "proof"); (135, p)] w -> wire_answer (bs "possession") w.
