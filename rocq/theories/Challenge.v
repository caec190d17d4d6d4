(** src/challenge: challenge-module.cpp, challenge-pin.cpp, challenge-email.cpp,
    challenge-possession.cpp *)
From Verif Require Export Types.
Local Open Scope N_scope.

(** Random values, clock readings and the outcome of starting the email script, for one call of a CA
    handler.  [in_t1]: the first clock reading, [in_t2]: the one made when a challenge state is stored or,
    in the NEW handler, the one used for the validity period.  Fixed-size random byte strings are given
    as numbers. *)
Record inputs : Type := Inputs {
  in_t1 : Z;
  in_t2 : Z;
  in_sk : bytes;          (* private key of the CA's ECDHState *)
  in_salt : N;            (* 32 random bytes *)
  in_iv : N;              (* 8 random bytes of a new encryption IV *)
  in_words : list N;      (* the 32-bit words drawn by generateSecretCode *)
  in_nonce : N;           (* 16 random bytes of the possession challenge *)
  in_version : N;         (* version appended to an issued certificate's or the profile packet's name *)
  in_mversion : N;        (* version of a metadata packet *)
  in_script_ok : bool;    (* boost::process::child starts the email script *)
  in_words64 : list N     (* the 64-bit words drawn by AssignmentRandom *)
}.
(** ca-module.cpp:341-342, crypto-helpers.cpp:398, challenge-possession.cpp:133-134 *)
Definition rnd_salt (r : inputs) : bytes := be_enc 32 (in_salt r).
Definition rnd_iv (r : inputs) : bytes := be_enc 8 (in_iv r).
Definition rnd_nonce (r : inputs) : bytes := be_enc 16 (in_nonce r).

(** Configuration read by the challenge modules: the email script path (ChallengeEmail's default
    argument) and the result of ChallengePossession::parseConfigFile (challenge-possession.cpp:52-80,
    read anew for each request because a new module object is created). *)
Record chal_cfg : Type := ChalCfg { cc_script : bytes; cc_anchors : res (list cert) }.

Definition CH_PIN : bytes := bs "pin".
Definition CH_EMAIL : bytes := bs "email".
Definition CH_POSSESSION : bytes := bs "possession".
(** CHALLENGE_TYPE passed to the base class by ChallengePossession (challenge-possession.cpp:42), not the
    name the challenge is registered under (line 34). *)
Definition CH_POSSESSION_TYPE : bytes := bs "Possession".

Definition NEED_CODE : bytes := bs "need-code".
Definition WRONG_CODE : bytes := bs "wrong-code".
Definition NEED_PROOF : bytes := bs "need-proof".
Definition K_CODE : bytes := bs "code".
Definition K_EMAIL : bytes := bs "email".
Definition K_CRED : bytes := bs "issued-cert".
Definition K_NONCE : bytes := bs "nonce".
Definition K_PROOF : bytes := bs "proof".

(** [ChallengeModule::isChallengeSupported] (challenge-module.cpp:36-42) and
    [createChallengeModule] (44-50): lookup in the factory filled by NDNCERT_REGISTER_CHALLENGE
    (challenge-pin.cpp:29, challenge-email.cpp:31, challenge-possession.cpp:34). *)
Definition supported (ctype : bytes) : bool :=
  bytes_eqb ctype CH_PIN || bytes_eqb ctype CH_EMAIL || bytes_eqb ctype CH_POSSESSION.

(** Left padding with '0' (challenge-module.cpp:68-70). *)
Definition pad6 (s : bytes) : bytes := repeat x30 (6 - length s) ++ s.

(** [ChallengeModule::generateSecretCode] (challenge-module.cpp:59-72).  [ws]: successive results of
    generateSecureWord32; the loop skips words from 4294000000 on. *)
Definition accepted_word (w : N) : bool := w mod 2 ^ 32 <? 4294000000.
Definition code_of_word (w : N) : bytes := pad6 (to_string_N ((w mod 2 ^ 32) / 4294)).
Definition gen_code (ws : list N) : res bytes :=
  match find accepted_word ws with
  | Some w => Ok (code_of_word w)
  | None => Hang
  end.

(** Result of handleChallengeRequest (challenge-module.hpp:40-41, ca-module.cpp:428): the returned error code and text (or an exception ...), the
    request as left by the handler, and the command line if an email script was started. *)
Record hres : Type := HRes { h_out : res (N * bytes); h_req : request; h_email : option bytes }.

(** [returnWithError] (challenge-module.cpp:74-81) *)
Definition ret_error (r : request) (code : N) (info : bytes) (em : option bytes) : hres :=
  HRes (Ok (code, info)) (set_cs None (set_ctype [] (set_status ST_FAILURE r))) em.
(** [returnWithNewChallengeStatus] (challenge-module.cpp:83-93); [t]: the clock reading it makes. *)
Definition ret_new (ctype : bytes) (t : Z) (r : request) (st : bytes) (secrets : list (bytes * bytes))
                   (tries : N) (rtime : Z) (em : option bytes) : hres :=
  HRes (Ok (NO_ERROR, []))
       (set_cs (Some (CState st t tries rtime secrets)) (set_ctype ctype (set_status ST_CHALLENGE r))) em.
(** [returnWithSuccess] (challenge-module.cpp:95-102) *)
Definition ret_success (ctype : bytes) (r : request) (em : option bytes) : hres :=
  HRes (Ok (NO_ERROR, [])) (set_cs None (set_ctype ctype (set_status ST_PENDING r))) em.
Definition ret_exn (r : request) (em : option bytes) : hres := HRes Exn r em.
Definition ret_ub (r : request) : hres := HRes UB r None.
Definition ret_hang (r : request) : hres := HRes Hang r None.

Definition msg_unexpected : bytes := bs "Unexpected status or challenge status".

(** The part of handleChallengeRequest that checks a code, the same in
    challenge-pin.cpp:58-86 and challenge-email.cpp:69-101 up to the text for "out of tries". *)
Definition check_code (ctype : bytes) (life : Z) (no_tries : bytes) (now t2 : Z) (params : list tlv)
                      (r : request) : hres :=
  match rq_cs r with
  | Some cs =>
      if bytes_eqb (cs_status cs) NEED_CODE || bytes_eqb (cs_status cs) WRONG_CODE then
        match get T_ParameterValue params with
        | None => ret_exn r None
        | Some given =>
            if (sec life <=? now - cs_time cs)%Z then ret_error r OUT_OF_TIME (bs "Secret expired.") None
            else match sec_get K_CODE (cs_secrets cs) with
            | None => ret_exn r None
            | Some code =>
                if bytes_eqb (t_val given) code then ret_success ctype r None
                else if 1 <? cs_tries cs then
                  let remain := (sec life - (now - cs_time cs))%Z in
                  ret_new ctype t2 r WRONG_CODE (cs_secrets cs) (cs_tries cs - 1) (Z.quot remain (sec 1)) None
                else ret_error r OUT_OF_TRIES no_tries None
            end
        end
      else ret_error r INVALID_PARAMETER msg_unexpected None
  | None => ret_error r INVALID_PARAMETER msg_unexpected None
  end.

(** Default arguments: challenge-pin.hpp (3 tries, 3600 s), challenge-email.hpp (3 tries, 300 s), and
    the possession constructor (1 try, 60 s; challenge-possession.cpp:42). *)
Definition max_tries : N := 3.
Definition pin_life : Z := 3600.
Definition email_life : Z := 300.
Definition possession_life : Z := 60.

(** [ChallengePin::handleChallengeRequest] (challenge-pin.cpp:41-87).  [params]: the elements of the
    decrypted payload. *)
Definition handle_pin (i : inputs) (params : list tlv) (r : request) : hres :=
  if rq_status r =? ST_BEFORE then
    match gen_code (in_words i) with
    | Ok code => ret_new CH_PIN (in_t2 i) r NEED_CODE [(K_CODE, code)] max_tries pin_life None
    | Exn => ret_exn r None
    | UB => ret_ub r
    | Hang => ret_hang r
    end
  else check_code CH_PIN pin_life (bs "Ran out tires.") (in_t1 i) (in_t2 i) params r.

(** The command line built by [ChallengeEmail::sendEmail] (challenge-email.cpp:164-167). *)
Definition DQ : bytes := [x22].
Definition email_command (E : env) (script email code : bytes) (r : request) : bytes :=
  script ++ bs " " ++ DQ ++ email ++ DQ ++ bs " " ++ DQ ++ code ++ DQ ++ bs " " ++ DQ ++
  o_to_uri E (rq_prefix r) ++ DQ ++ bs " " ++ DQ ++ o_to_uri E (c_name (rq_cert r)) ++ DQ.

(** [ChallengeEmail::handleChallengeRequest] (challenge-email.cpp:47-102).  The comparison with the last
    component of the identity is only logged; [Name::get(-1)] on an empty identity is out of bounds.
    [boost::process::child] throws if the script cannot be started. *)
Definition handle_email (E : env) (cfg : chal_cfg) (i : inputs) (params : list tlv) (r : request) : hres :=
  if rq_status r =? ST_BEFORE then
    match get T_ParameterValue params with
    | None => ret_exn r None
    | Some em =>
        match get_neg 1 (identity_of (c_name (rq_cert r))) with
        | None => ret_ub r
        | Some _ =>
            match gen_code (in_words i) with
            | Ok code =>
                if in_script_ok i then
                  ret_new CH_EMAIL (in_t2 i) r NEED_CODE [(K_CODE, code)] max_tries email_life
                          (Some (email_command E (cc_script cfg) (t_val em) code r))
                else ret_exn r None
            | Exn => ret_exn r None
            | UB => ret_ub r
            | Hang => ret_hang r
            end
        end
    end
  else check_code CH_EMAIL email_life (bs "Ran out of tries.") (in_t1 i) (in_t2 i) params r.

(** The loop of [ChallengePossession::handleChallengeRequest] (challenge-possession.cpp:94-113): collects
    the credential and the proof.  [None]: a credential that cannot be decoded.  An empty [params] makes
    [elements.size() - 1] wrap; that case is handled by the caller. *)
Fixpoint poss_loop (E : env) (l : list tlv) (cred : option cert) (proof : bytes) : option (option cert * bytes) :=
  match l with
  | k :: l1 =>
      match l1 with
      | v :: _ =>
          if (t_type k =? T_ParameterKey) && (t_type v =? T_ParameterValue) then
            if bytes_eqb (t_val k) K_CRED then
              match block_from_value (t_val v) with
              | Some b => match data_decode E b with
                          | Some c => poss_loop E l1 (Some c) proof
                          | None => None
                          end
              | None => None
              end
            else if bytes_eqb (t_val k) K_PROOF then poss_loop E l1 cred (t_val v)
            else poss_loop E l1 cred proof
          else poss_loop E l1 cred proof
      | [] => Some (cred, proof)
      end
  | [] => Some (cred, proof)
  end.

Definition has_content (c : option cert) : bool :=
  match c with
  | Some c' => match c_content c' with Some _ => true | None => false end
  | None => false
  end.

(** The anchor check (challenge-possession.cpp:127-130): key name or certificate name equals the
    credential's key locator, and the credential verifies under the anchor. *)
Definition anchor_ok (E : env) (cred : cert) (loc : name) (anchor : cert) : bool :=
  (name_eqb (key_name_of (c_name anchor)) loc || name_eqb (c_name anchor) loc) && verify_cert E cred anchor.

(** [ChallengePossession::handleChallengeRequest] (challenge-possession.cpp:83-161).  The text
    [e.what()] appended to the first error message is left out. *)
Definition handle_possession (E : env) (cfg : chal_cfg) (i : inputs) (params : list tlv) (r : request) : hres :=
  match cc_anchors cfg with
  | Exn => ret_exn r None
  | UB => ret_ub r
  | Hang => ret_hang r
  | Ok anchors =>
  match params with
  | [] => ret_ub r
  | _ :: _ =>
  match poss_loop E params None [] with
  | None => ret_error r INVALID_PARAMETER (bs "Cannot challenge credential: credential.") None
  | Some (cred, proof) =>
      if rq_status r =? ST_BEFORE then
        match cred, has_content cred, proof with
        | Some c, true, [] =>
            match c_keyloc c with
            | None => ret_exn r None
            | Some loc =>
                if negb (o_pubkey_ok E (public_key c)) then ret_exn r None
                else if existsb (anchor_ok E c loc) anchors then
                  ret_new CH_POSSESSION_TYPE (in_t2 i) r NEED_PROOF
                          [(K_NONCE, to_hex (rnd_nonce i)); (K_CRED, to_hex (enc_tlv (cert_tlv E c)))]
                          1 possession_life None
                else ret_error r INVALID_PARAMETER (bs "Certificate cannot be verified") None
            end
        | _, _, _ => ret_error r BAD_INTEREST_FORMAT (bs "Cannot find certificate") None
        end
      else
        match rq_cs r with
        | Some cs =>
            if bytes_eqb (cs_status cs) NEED_PROOF then
              match has_content cred, proof with
              | false, _ :: _ =>
                  let hex k := from_hex (match sec_get k (cs_secrets cs) with Some h => h | None => [] end) in
                  match hex K_CRED with
                  | None => ret_exn r None
                  | Some w =>
                  match block_from_value w with
                  | None => ret_exn r None
                  | Some b =>
                  match cert_decode E b with
                  | None => ret_exn r None
                  | Some c =>
                  match hex K_NONCE with
                  | None => ret_exn r None
                  | Some nonce =>
                      if negb (o_pubkey_ok E (public_key c)) then ret_exn r None
                      else if o_verify E (public_key c) (MRaw nonce) proof
                      then ret_success CH_POSSESSION_TYPE r None
                      else ret_error r INVALID_PARAMETER
                             (bs "Cannot verify the proof of private key against credential.") None
                  end
                  end
                  end
                  end
              | _, _ => ret_error r BAD_INTEREST_FORMAT (bs "Cannot find certificate") None
              end
            else ret_error r INVALID_PARAMETER (bs "Fail to recognize the request.") None
        | None => ret_error r INVALID_PARAMETER (bs "Fail to recognize the request.") None
        end
  end
  end
  end.

(** [createChallengeModule(type)->handleChallengeRequest(params, request)] (ca-module.cpp:418-428);
    [None]: no such module. *)
Definition handle_challenge (E : env) (cfg : chal_cfg) (i : inputs) (ctype : bytes) (params : list tlv)
                            (r : request) : option hres :=
  if bytes_eqb ctype CH_PIN then Some (handle_pin i params r)
  else if bytes_eqb ctype CH_EMAIL then Some (handle_email E cfg i params r)
  else if bytes_eqb ctype CH_POSSESSION then Some (handle_possession E cfg i params r)
  else None.

(** ** Client side *)

(** challenge-pin.cpp:98-101, challenge-email.cpp:110-116, challenge-possession.cpp:169-173 *)
Definition prompt_pin : bytes := bs "Please input your PIN code".
Definition prompt_pin_wrong : bytes := bs "Incorrect PIN code, please try again".
Definition prompt_email : bytes := bs "Please input your email address".
Definition prompt_code : bytes := bs "Please input your verification code".
Definition prompt_code_wrong : bytes := bs "Incorrect code, please try again".
Definition prompt_cred : bytes := bs "Please provide the certificate issued by a trusted CA.".
Definition prompt_proof : bytes := bs "Please sign a Data packet with request ID as the content.".

(** [getRequestedParameterList] (challenge-pin.cpp:90-107, challenge-email.cpp:105-122,
    challenge-possession.cpp:164-179); outer [None]: no such module. *)
Definition requested_params (ctype : bytes) (status : N) (cstatus : bytes) : option (res mmap) :=
  if bytes_eqb ctype CH_PIN then
    Some (if status =? ST_BEFORE then Ok []
          else if (status =? ST_CHALLENGE) && bytes_eqb cstatus NEED_CODE then Ok [(K_CODE, prompt_pin)]
          else if (status =? ST_CHALLENGE) && bytes_eqb cstatus WRONG_CODE then Ok [(K_CODE, prompt_pin_wrong)]
          else Exn)
  else if bytes_eqb ctype CH_EMAIL then
    Some (if (status =? ST_BEFORE) && bytes_eqb cstatus [] then Ok [(K_EMAIL, prompt_email)]
          else if (status =? ST_CHALLENGE) && bytes_eqb cstatus NEED_CODE then Ok [(K_CODE, prompt_code)]
          else if (status =? ST_CHALLENGE) && bytes_eqb cstatus WRONG_CODE then Ok [(K_CODE, prompt_code_wrong)]
          else Exn)
  else if bytes_eqb ctype CH_POSSESSION then
    Some (if status =? ST_BEFORE then Ok [(K_CRED, prompt_cred)]
          else if (status =? ST_CHALLENGE) && bytes_eqb cstatus NEED_PROOF then Ok [(K_PROOF, prompt_proof)]
          else Exn)
  else None.

(** One key/value step of genChallengeRequestTLV (challenge-pin.cpp:110-130, challenge-email.cpp:125-150) shared by the pin and
    email modules: exactly one parameter, with the given key. *)
Definition one_param (ctype key : bytes) (params : mmap) : res (list tlv) :=
  match params with
  | [(k, v)] => if bytes_eqb k key
                then Ok [Tlv T_SelectedChallenge ctype; Tlv T_ParameterKey key; Tlv T_ParameterValue v]
                else Exn
  | _ => Exn
  end.

(** [genChallengeRequestTLV] (challenge-pin.cpp:109-130, challenge-email.cpp:124-150,
    challenge-possession.cpp:181-224): the elements of the payload.  Outer [None]: no such module. *)
Definition gen_challenge_tlv (ctype : bytes) (status : N) (cstatus : bytes) (params : mmap)
  : option (res (list tlv)) :=
  if bytes_eqb ctype CH_PIN then
    Some (if status =? ST_BEFORE then Ok [Tlv T_SelectedChallenge CH_PIN]
          else if (status =? ST_CHALLENGE) && (bytes_eqb cstatus NEED_CODE || bytes_eqb cstatus WRONG_CODE)
          then one_param CH_PIN K_CODE params
          else Exn)
  else if bytes_eqb ctype CH_EMAIL then
    Some (if status =? ST_BEFORE then one_param CH_EMAIL K_EMAIL params
          else if (status =? ST_CHALLENGE) && (bytes_eqb cstatus NEED_CODE || bytes_eqb cstatus WRONG_CODE)
          then one_param CH_EMAIL K_CODE params
          else Exn)
  else if bytes_eqb ctype CH_POSSESSION then
    Some (if status =? ST_BEFORE then
            match params with
            | [(k, v)] =>
                if bytes_eqb k K_CRED then
                  do blk <- of_opt (dec_elem v);
                  Ok [Tlv T_SelectedChallenge CH_POSSESSION_TYPE; Tlv T_ParameterKey K_CRED;
                      Tlv T_ParameterValue (enc_tlv (fst blk))]
                else Exn
            | _ => Exn
            end
          else if (status =? ST_CHALLENGE) && bytes_eqb cstatus NEED_PROOF then
            match params with
            | [(k, v)] =>
                if bytes_eqb k K_PROOF then Ok [Tlv T_ParameterKey K_PROOF; Tlv T_ParameterValue v] else Exn
            | _ => Exn
            end
          else Exn)
  else None.
