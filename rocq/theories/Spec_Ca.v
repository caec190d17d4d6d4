(** Vocabulary for the statements about the CA's handlers. *)
From Verif Require Export CaTrace Spec_Storage Spec_Crypto.
Local Open Scope N_scope.

(** ** Interest names *)
(** The components after <CA prefix>/CA that select a handler. *)
Definition verb_comps (v : verb) : list comp :=
  match v with
  | VInfo => [gc (bs "INFO"); Tlv T_Keyword (bs "metadata")]
  | VProbe => [gc (bs "PROBE")]
  | VNew => [gc (bs "NEW")]
  | VChallenge => [gc (bs "CHALLENGE")]
  | VRevoke => [gc (bs "REVOKE")]
  end.
Definition addressed (g : ca_cfg) (v : verb) (n : name) : Prop :=
  exists rest, n = p_prefix (cfp g) ++ [gc (bs "CA")] ++ verb_comps v ++ rest.
(** The handler of each request type. *)
Definition verb_of (rt : N) : verb := if rt =? RT_NEW then VNew else VRevoke.
(** The request ID a CHALLENGE Interest names. *)
Definition names_request (g : ca_cfg) (id : bytes) (x : interest) : Prop :=
  exists ty rest, i_name x = p_prefix (cfp g) ++ [gc (bs "CA"); gc (bs "CHALLENGE"); Tlv ty id] ++ rest /\ length id = 8%nat.

(** ** Signatures *)
Definition signed_by (E : env) (x : interest) (pk : bytes) : Prop :=
  exists s, i_sig x = Some s /\ o_verify E pk (interest_msg x) s = true.
Definition cert_signed_by (E : env) (c : cert) (pk : bytes) : Prop := o_verify E pk (cert_msg c) (c_sig c) = true.
Definition data_signed_by (E : env) (d : data) (sk : bytes) : Prop := d_sig d = o_sign E sk (data_msg d).

(** ** Admission policy *)
(** <CA prefix>/<suffix>/KEY/<key id>/<issuer>/<version> with a non-empty suffix within the limit. *)
Definition name_policy (g : ca_cfg) (n : name) : Prop :=
  exists suffix kid issuer version, n = p_prefix (cfp g) ++ suffix ++ [gc (bs "KEY"); kid; issuer; version] /\
    suffix <> [] /\ (forall k, p_maxsuffix (cfp g) = Some k -> N.of_nat (length suffix) <= k).
(** The configured limit does not overflow a size_t. *)
Definition suffix_limit_sane (g : ca_cfg) : Prop :=
  forall k, p_maxsuffix (cfp g) = Some k -> N.of_nat (length (p_prefix (cfp g))) + k < 2 ^ 64.
Definition period_policy (g : ca_cfg) (now nb na : Z) : Prop :=
  (now - sec 120 <= nb /\ na <= now + sec (p_maxvalid (cfp g)) /\ nb < na)%Z.
Definition within (t : Z) (v : option (Z * Z)) : Prop :=
  exists nb na, v = Some (nb, na) /\ (nb <= t <= na)%Z.

(** What the certificate in a NEW (REVOKE) Interest must satisfy besides its name. *)
Definition cert_policy (E : env) (g : ca_cfg) (rt : N) (now : Z) (x : interest) (c : cert) : Prop :=
  (rt = RT_NEW /\ (exists nb na, c_validity c = Some (nb, na) /\ period_policy g now nb na) /\
   cert_signed_by E c (public_key c) /\ signed_by E x (public_key c)) \/
  (rt = RT_REVOKE /\ cert_signed_by E c (public_key (cf_cert g))).
(** The parameters of the Interest: the requester's ECDH key and a certificate. *)
Definition carries (E : env) (rt : N) (x : interest) (peer : bytes) (c : cert) : Prop :=
  exists cty, cert_type rt cty /\ request_params E cty (params_of x) peer c.
(** The key both sides derive. *)
Definition session_key (E : env) (i : inputs) (id peer : bytes) : bytes :=
  snd (o_hkdf E (snd (o_ecdh E (in_sk i) peer)) (rnd_salt i) id).
Definition key_derivable (E : env) (i : inputs) (id peer : bytes) : Prop :=
  fst (o_hkdf E (snd (o_ecdh E (in_sk i) peer)) (rnd_salt i) id) <> 0%Z.

(** The request ID: the first eight bytes of HMAC-SHA256 of the certificate's name under the process's own key. *)
Definition id_for (E : env) (key : bytes) (n : name) : bytes := firstn 8 (o_hmac E key (name_wire n)).

(** A NEW or REVOKE Interest the CA should accept when nothing is pending under [id]. *)
Record admissible (E : env) (g : ca_cfg) (i : inputs) (rt : N) (id : bytes) (x : interest) (peer : bytes) (c : cert) : Prop := {
  ad_ca : within (in_t1 i) (c_validity (cf_cert g));
  ad_params : carries E rt x peer c;
  ad_nonempty : peer <> [];
  ad_usable : fst (o_ecdh E (in_sk i) peer) <> 0%Z;
  ad_name : name_policy g (c_name c);
  ad_cert : cert_policy E g rt (in_t2 i) x c;
  ad_key : key_derivable E i id peer
}.
(** The request it creates. *)
Definition created (E : env) (g : ca_cfg) (i : inputs) (rt : N) (id peer : bytes) (c : cert) : request :=
  Request (p_prefix (cfp g)) id rt ST_BEFORE c (session_key E i id peer) [] [] [] None.

(** Why such an Interest may be answered with an error, with the code.  [pending]: request IDs in use. *)
Inductive refusal (E : env) (g : ca_cfg) (i : inputs) (rt : N) (idkey : bytes) (pending : bytes -> Prop) (x : interest) : N -> Prop :=
| RF_ca_expired : forall nb na, c_validity (cf_cert g) = Some (nb, na) -> ~ (nb <= in_t1 i <= na)%Z ->
    refusal E g i rt idkey pending x (6 (* bad validity period *))
| RF_params : (forall peer c, ~ carries E rt x peer c) -> refusal E g i rt idkey pending x (4 (* invalid parameter *))
| RF_empty_key : forall c, carries E rt x [] c -> refusal E g i rt idkey pending x (4 (* invalid parameter *))
| RF_bad_key : forall peer c, carries E rt x peer c -> fst (o_ecdh E (in_sk i) peer) = 0%Z ->
    refusal E g i rt idkey pending x (4 (* invalid parameter *))
| RF_name : forall peer c, carries E rt x peer c -> ~ name_policy g (c_name c) -> refusal E g i rt idkey pending x (5 (* name not allowed *))
| RF_period : forall peer c nb na, carries E rt x peer c -> rt = RT_NEW -> c_validity c = Some (nb, na) ->
    ~ period_policy g (in_t2 i) nb na -> refusal E g i rt idkey pending x (6 (* bad validity period *))
| RF_cert_signature : forall peer c, carries E rt x peer c -> rt = RT_NEW -> ~ cert_signed_by E c (public_key c) ->
    refusal E g i rt idkey pending x (3 (* bad signature *))
| RF_signature : forall peer c, carries E rt x peer c -> rt = RT_NEW -> ~ signed_by E x (public_key c) ->
    refusal E g i rt idkey pending x (3 (* bad signature *))
| RF_revoke : forall peer c, carries E rt x peer c -> rt = RT_REVOKE -> ~ cert_signed_by E c (public_key (cf_cert g)) ->
    refusal E g i rt idkey pending x (3 (* bad signature *))
| RF_duplicate : forall peer c, carries E rt x peer c -> pending (request_id_of E idkey (c_name c)) ->
    refusal E g i rt idkey pending x (4 (* invalid parameter *)).

(** When the handler throws instead of replying: no validity period in the CA's certificate or in the certificate
    request, or HKDF fails. *)
Inductive new_throws (E : env) (g : ca_cfg) (i : inputs) (rt : N) (idkey : bytes) (x : interest) : Prop :=
| NT_ca : c_validity (cf_cert g) = None -> new_throws E g i rt idkey x
| NT_request : forall peer c, carries E rt x peer c -> rt = RT_NEW -> c_validity c = None -> new_throws E g i rt idkey x
| NT_hkdf : forall peer c, carries E rt x peer c -> ~ key_derivable E i (request_id_of E idkey (c_name c)) peer ->
    new_throws E g i rt idkey x.

(** ** Challenges *)
(** A key-value pair in the decrypted parameters. *)
Definition pair_in (params : list tlv) (k v : bytes) : Prop :=
  exists a b, params = a ++ Tlv T_ParameterKey k :: Tlv T_ParameterValue v :: b.
(** The credential a possession challenge is started with. *)
Definition credential_in (E : env) (params : list tlv) (c : cert) : Prop :=
  exists w b, pair_in params (bs "issued-cert") w /\ block_from_value w = Some b /\ data_decode E b = Some c.
(** A credential the CA trusts: signed by a configured anchor that its key locator names. *)
Definition trusted (E : env) (cfg : chal_cfg) (c : cert) : Prop :=
  exists anchors anchor loc, cc_anchors cfg = Ok anchors /\ In anchor anchors /\ c_keyloc c = Some loc /\
    (key_name_of (c_name anchor) = loc \/ c_name anchor = loc) /\ cert_signed_by E c (public_key anchor).

(** Starting a challenge: the type named in the payload, the challenge state it fixes, and the command run
    to send an email. *)
Inductive starts (E : env) (cfg : chal_cfg) (i : inputs) (params : list tlv) (r : request) : bytes -> cstate -> option bytes -> Prop :=
| start_pin : forall code, gen_code (in_words i) = Ok code ->
    starts E cfg i params r (bs "pin") (CState (bs "need-code") (in_t2 i) 3 3600 [(bs "code", code)]) None
| start_email : forall code addr, gen_code (in_words i) = Ok code -> get T_ParameterValue params = Some addr ->
    starts E cfg i params r (bs "email") (CState (bs "need-code") (in_t2 i) 3 300 [(bs "code", code)])
           (Some (email_command E (cc_script cfg) (t_val addr) code r))
| start_possession : forall c, credential_in E params c -> c_content c <> None -> trusted E cfg c ->
    starts E cfg i params r (bs "possession")
           (CState (bs "need-proof") (in_t2 i) 1 60
                   [(bs "nonce", to_hex (rnd_nonce i)); (bs "issued-cert", to_hex (enc_tlv (cert_tlv E c)))]) None.

(** The two payloads of a possession challenge, with the name under which the CA registers it. *)
Definition start_params (w : bytes) : list tlv :=
  [Tlv T_SelectedChallenge (bs "possession"); Tlv T_ParameterKey (bs "issued-cert"); Tlv T_ParameterValue w].
Definition proof_params (sig : bytes) : list tlv :=
  [Tlv T_SelectedChallenge (bs "possession"); Tlv T_ParameterKey (bs "proof"); Tlv T_ParameterValue sig].
(** A possession challenge waits for the proof: credential and nonce are on record. *)
Definition proves (E : env) (cs : cstate) (c : cert) (nonce : bytes) : Prop :=
  cs_status cs = bs "need-proof" /\ cs_secrets cs = [(bs "nonce", to_hex nonce); (bs "issued-cert", to_hex (enc_tlv (cert_tlv E c)))].

(** Lifetime in seconds of a secret code, by the challenge type named in the payload. *)
Inductive code_life : bytes -> Z -> Prop :=
| life_pin : code_life (bs "pin") 3600
| life_email : code_life (bs "email") 300.
Definition wants_code (cs : cstate) : Prop := cs_status cs = bs "need-code" \/ cs_status cs = bs "wrong-code".

(** A code (the first parameter value) that is compared with the secret. *)
Definition guesses (i : inputs) (params : list tlv) (cs : cstate) (ty given : bytes) : Prop :=
  exists life t, code_life ty life /\ wants_code cs /\ get T_ParameterValue params = Some t /\ t_val t = given /\
    (in_t1 i - cs_time cs < sec life)%Z.
(** A wrong code, with tries left: the new challenge state. *)
Definition retries (i : inputs) (params : list tlv) (cs : cstate) (ty : bytes) (cs' : cstate) : Prop :=
  exists given code life, guesses i params cs ty given /\ code_life ty life /\
    sec_get (bs "code") (cs_secrets cs) = Some code /\ given <> code /\ 1 < cs_tries cs /\
    cs' = CState (bs "wrong-code") (in_t2 i) (cs_tries cs - 1) (Z.quot (sec life - (in_t1 i - cs_time cs)) (sec 1)) (cs_secrets cs).
(** Passing a challenge. *)
Inductive passes (E : env) (i : inputs) (params : list tlv) (cs : cstate) : bytes -> Prop :=
| pass_code : forall ty code, guesses i params cs ty code -> sec_get (bs "code") (cs_secrets cs) = Some code ->
    passes E i params cs ty
| pass_proof : forall c w t nonce proof, cs_status cs = bs "need-proof" -> pair_in params (bs "proof") proof -> proof <> [] ->
    from_hex (match sec_get (bs "issued-cert") (cs_secrets cs) with Some h => h | None => [] end) = Some w ->
    block_from_value w = Some t -> cert_decode E t = Some c ->
    from_hex (match sec_get (bs "nonce") (cs_secrets cs) with Some h => h | None => [] end) = Some nonce ->
    o_verify E (public_key c) (MRaw nonce) proof = true ->
    passes E i params cs (bs "possession").

(** The challenge type recorded with the state. *)
Definition recorded_type (ty : bytes) : bytes := if bytes_eqb ty (bs "possession") then bs "Possession" else ty.

(** The encrypted parameters of a CHALLENGE Interest, opened with the request's key. *)
Definition opens (E : env) (key id : bytes) (x : interest) (params : list tlv) : Prop :=
  exists els iv tag ct pt, parse (params_of x) = Some els /\ get T_InitializationVector els = Some iv /\
    get T_AuthenticationTag els = Some tag /\ get T_EncryptedPayload els = Some ct /\
    o_aes_dec E key (t_val iv) id (t_val ct) (t_val tag) = Some pt /\ parse pt = Some params.
Definition selects (params : list tlv) (ty : bytes) : Prop := exists t, get T_SelectedChallenge params = Some t /\ t_val t = ty.

(** Requests as they are between Interests: before a challenge without IVs, or in a challenge. *)
Definition live (r : request) : Prop :=
  (rq_status r = ST_BEFORE /\ rq_ctype r = [] /\ rq_cs r = None /\ rq_eiv r = [] /\ rq_div r = []) \/
  (rq_status r = ST_CHALLENGE /\ rq_ctype r <> [] /\ (exists cs, rq_cs r = Some cs /\ 1 <= cs_tries cs <= 3) /\ iv12 (rq_eiv r) /\ iv12 (rq_div r)).

(** ** Replies *)
(** A signed reply to [x] carrying an error. *)
Definition error_reply (E : env) (g : ca_cfg) (x : interest) (code : N) (d : data) : Prop :=
  d_name d = i_name x /\ data_signed_by E d (cf_sk g) /\ exists info, err_decode (d_content d) = (code, info).
Definition puts (es : list eff) : list data := flat_map (fun e => match e with EPut d => [d] | _ => [] end) es.
(** The reply to an accepted NEW or REVOKE: ECDH key, salt, request ID and the configured challenges. *)
Definition new_reply (E : env) (g : ca_cfg) (i : inputs) (x : interest) (id : bytes) : data :=
  reply_data E g (i_name x) (reply_encode (o_ecdh_pub E (in_sk i)) (rnd_salt i) id (p_challenges (cfp g))).

(** ** States of a CA *)
Inductive back_end (E : env) : forall S, store_ops S -> Prop :=
| BE_memory : back_end E mem mem_ops
| BE_sqlite : back_end E db (db_ops E).
Definition reachable {S} (E : env) (g : ca_cfg) (ops : store_ops S) (s : ca_state S) : Prop :=
  exists key evs h, run E g ops (ca_init ops key) evs = Some (s, h).
(** A CA, with one of the two storages, in a state it can be in. *)
Record ca_at {S} (E : env) (g : ca_cfg) (ops : store_ops S) (s : ca_state S) : Prop := {
  at_codec : codec_laws E;
  at_prefix : name_fits (p_prefix (cfp g));
  at_store : back_end E S ops;
  at_reach : reachable E g ops s
}.
(** The request stored under an ID. *)
Definition pending {S} (ops : store_ops S) (s : ca_state S) (id : bytes) : option request := s_get ops (ca_store s) id.

(** The process ends and is started again. *)
Definition restarts (ev : event) : Prop := match ev with EvCrash _ _ _ _ | EvRestart _ => True | _ => False end.

(** ** The CA profile *)
(** Name of the profile packet: <CA prefix>/CA/INFO/<version>/<segment 0>. *)
Definition profile_name (g : ca_cfg) (version : N) : name :=
  p_prefix (cfp g) ++ [gc (bs "CA"); gc (bs "INFO"); version_comp version; Tlv T_Segment (nni_enc 0)].
Definition no_restart (evs : list event) : Prop :=
  Forall (fun ev => match ev with EvCrash _ _ _ _ | EvRestart _ => False | _ => True end) evs.

(** The name assignment functions in force: the configured ones, or a random name if none is configured. *)
Definition assignments (g : ca_cfg) : list assign :=
  match cf_assign (cf g) with
  | [] => [Assign ARandom []]
  | a :: l => a :: l
  end.
