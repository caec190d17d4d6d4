(** src/requester-request.cpp *)
From Verif Require Export Challenge ErrorEncoder InfoEncoder ProbeEncoder RequestEncoder ChallengeEncoder.
Local Open Scope N_scope.

(** Random values and clock readings of one requester call. [ri_kloc]: the key locator the key chain puts
    into a certificate request; [ri_salt0]: what the uninitialised salt buffer holds. *)
Record rinputs : Type := RInputs {
  ri_now : Z;
  ri_version : N;
  ri_iv : N;
  ri_kloc : name;
  ri_salt0 : bytes
}.

(** A freshly constructed [Request] (requester-request.cpp:113-118, requester-request.hpp:194-269);
    [m_requestId] has no initialiser ([id0]). *)
Definition request_init (p : profile) (rt : N) (ecdh id0 : bytes) : rstate :=
  RState p rt [] id0 ST_BEFORE [] [] 0 0 [] [] ecdh (repeat x00 16) [] [] (repeat x00 16) None.

Definition r_CA : comp := gc (bs "CA").

Section WithEnv.
  Context (E : env).

  (** The ParametersSha256Digest component of an Interest (ndn-cxx, from [setApplicationParameters] and [KeyChain::sign];
      requester-request.cpp:97, 153-157, 173, 235-236).  The real digest also covers the signature elements, so real names
      differ whenever these do.  The code never reads it; only C124 is about its value. *)
  Definition digest_comp (params : bytes) : comp :=
    Tlv T_ParamsDigest (o_sha256 E (enc_tlv (Tlv T_AppParams params))).
  Definition unsigned_interest (n : name) (params : bytes) : interest :=
    Interest (n ++ [digest_comp params]) (Some params) None.
  Definition signed_interest (sk : bytes) (n : name) (params : bytes) : interest :=
    let n' := n ++ [digest_comp params] in
    Interest n' (Some params) (Some (o_sign E sk (MInterest (strip_digest n') params))).

  (** [genCaProfileDiscoveryInterest] (requester-request.cpp:47-55); [Name::at(-1)] throws on an empty
      name. *)
  Definition gen_discovery (ca : name) : res interest :=
    do last <- of_opt (get_neg 1 ca);
    let n := if bytes_eqb (t_val last) (bs "CA") then ca else ca ++ [r_CA] in
    Ok (Interest (n ++ [gc (bs "INFO"); Tlv T_Keyword (bs "metadata")]) None None).

  Definition is_number (c : comp) : bool :=
    match nni_dec (t_val c) with Some _ => true | None => false end.
  Definition is_version (c : comp) : bool := (t_type c =? T_Version) && is_number c.
  Definition is_segment (c : comp) : bool := (t_type c =? T_Segment) && is_number c.
  (** [MetadataObject(const Data&)] (ndn-cxx; requester-request.cpp:60): checks the packet name, reads the versioned name. *)
  Definition metadata_decode (d : data) : res name :=
    match get_neg 3 (d_name d), get_neg 2 (d_name d), get_neg 1 (d_name d) with
    | Some k, Some v, Some s =>
        if comp_eqb k (Tlv T_Keyword (bs "metadata")) && is_version v && is_segment s then
          do b <- of_opt (block_from_value (d_content d));
          do n <- of_opt (name_decode b);
          match get_neg 1 n with
          | Some c => if is_version c then Ok n else Exn
          | None => Exn
          end
        else Exn
    | _, _, _ => Exn
    end.
  (** [genCaProfileInterestFromDiscoveryResponse] (requester-request.cpp:57-64) *)
  Definition gen_profile_interest (d : data) : res interest :=
    do n <- metadata_decode d; Ok (Interest (n ++ [Tlv T_Segment (nni_enc 0)]) None None).

  (** [onCaProfileResponse] (requester-request.cpp:66-75): dereferences a null pointer when the profile has
      no certificate. *)
  Definition on_profile (d : data) : res profile :=
    do p <- info_decode E (d_content d);
    match p_cert p with
    | None => UB
    | Some c => if verify_data E d c then Ok p else Exn
    end.
  (** [onCaProfileResponseAfterRedirection] (requester-request.cpp:77-88) *)
  Definition on_profile_redirected (d : data) (full : name) : res profile :=
    do p <- info_decode E (d_content d);
    match p_cert p with
    | None => UB
    | Some c =>
        do c' <- of_opt (cert_decode E (cert_tlv E c));
        if name_eqb (full_name E c') full then on_profile d else Exn
    end.

  (** [genProbeInterest] (requester-request.cpp:90-99) *)
  Definition gen_probe (p : profile) (params : mmap) : interest :=
    unsigned_interest (p_prefix p ++ [r_CA; gc (bs "PROBE")]) (probe_params_encode params).

  (** [processIfError] (requester-request.cpp:273-285) *)
  Definition process_if_error (d : data) : res unit :=
    if fst (err_decode (d_content d)) =? NO_ERROR then Ok tt else Exn.

  (** Signature and error check at the start of every response handler (requester-request.cpp:105-109, 181-185, 243-247); a profile without certificate is
      dereferenced. *)
  Definition check_reply (p : profile) (d : data) : res unit :=
    match p_cert p with
    | None => UB
    | Some c => if verify_data E d c then process_if_error d else Exn
    end.

  (** [onProbeResponse] (requester-request.cpp:101-111) *)
  Definition on_probe_response (d : data) (p : profile) : res (list (name * Z) * list name) :=
    do _ <- check_reply p d; probe_decode (d_content d).

  (** [genNewInterest] (requester-request.cpp:120-159); [None]: nullptr.  The key [keyName] with signing key
      [sk] is assumed to be in the key chain; [extractIdentityFromKeyName] throws on a name that is not a
      key name. *)
  Definition cert_request (sk : bytes) (ri : rinputs) (keyName : name) (nb na : Z) : cert :=
    let n := keyName ++ [gc (bs "cert-request"); version_comp (ri_version ri)] in
    let content := Some (o_pub E sk) in
    let v := Some (mk_validity nb na) in
    Cert n true content v (Some (ri_kloc ri)) [] (o_sign E sk (MCert n true content v (Some (ri_kloc ri)) [])).

  Definition gen_new (s : rstate) (ri : rinputs) (keyName : name) (sk : bytes) (nb na : Z)
    : res (option interest) * rstate :=
    if negb (is_prefix (p_prefix (rs_profile s)) keyName) then (Ok None, s)
    else match keyName with
    | [] => (Ok None, s)
    | _ :: _ =>
        match get_neg 2 keyName with
        | None => (Exn, s)
        | Some k =>
            if comp_eqb k c_KEY then
              let s1 := upd_keypair (Some (keyName, sk)) (upd_identity (prefix_neg 2 keyName) s) in
              let params := req_encode E RT_NEW (o_ecdh_pub E (rs_ecdh s)) (cert_request sk ri keyName nb na) in
              (Ok (Some (signed_interest sk (p_prefix (rs_profile s) ++ [r_CA; gc (bs "NEW")]) params)), s1)
            else (Exn, s)
        end
    end.

  (** [genRevokeInterest] (requester-request.cpp:161-176): the Interest is not signed. *)
  Definition gen_revoke (s : rstate) (c : cert) : option interest :=
    if negb (is_prefix (p_prefix (rs_profile s)) (c_name c)) then None
    else Some (unsigned_interest (p_prefix (rs_profile s) ++ [r_CA; gc (bs "REVOKE")])
                 (req_encode E RT_REVOKE (o_ecdh_pub E (rs_ecdh s)) c)).

  (** [onNewRenewRevokeResponse] (requester-request.cpp:178-200): returns the challenges. *)
  Definition on_new_response (s : rstate) (ri : rinputs) (d : data) : res (list bytes) * rstate :=
    match check_reply (rs_profile s) d with
    | Ok _ =>
        let (o, r) := reply_decode (ri_salt0 ri) (rs_id s) (d_content d) in
        let s1 := upd_id (rp_id r) s in
        match o with
        | Ok _ =>
            match (do secret <- derive_secret E (rs_ecdh s) (rp_ecdh r);
                   hkdf E secret (rp_salt r) (rp_id r)) with
            | Ok key => (Ok (rp_challenges r), upd_key key s1)
            | Exn => (Exn, s1)
            | UB => (UB, s1)
            | Hang => (Hang, s1)
            end
        | Exn => (Exn, s1)
        | UB => (UB, s1)
        | Hang => (Hang, s1)
        end
    | Exn => (Exn, s)
    | UB => (UB, s)
    | Hang => (Hang, s)
    end.

  (** [selectOrContinueChallenge] (requester-request.cpp:202-211) *)
  Definition select_challenge (s : rstate) (ctype : bytes) : res mmap * rstate :=
    match requested_params ctype (rs_status s) (rs_cstatus s) with
    | None => (Exn, s)
    | Some r => (r, upd_ctype ctype s)
    end.

  (** [genChallengeInterest] (requester-request.cpp:213-238).  Without a key pair the key chain throws. *)
  Definition gen_challenge (s : rstate) (ri : rinputs) (params : mmap) : res interest * rstate :=
    match rs_ctype s with
    | [] => (Exn, s)
    | _ :: _ =>
        match gen_challenge_tlv (rs_ctype s) (rs_status s) (rs_cstatus s) params with
        | None => (Exn, s)
        | Some (Ok els) =>
            let (o, iv) := encode_aes E (rs_key s) (enc_tlvs els) (rs_id s) (rs_eiv s) (be_enc 8 (ri_iv ri)) in
            let s1 := upd_eiv iv s in
            match o with
            | Ok params' =>
                match rs_keypair s with
                | Some (_, sk) =>
                    (Ok (signed_interest sk (p_prefix (rs_profile s) ++
                           [r_CA; gc (bs "CHALLENGE"); gc (rs_id s)]) params'), s1)
                | None => (Exn, s1)
                end
            | Exn => (Exn, s1)
            | UB => (UB, s1)
            | Hang => (Hang, s1)
            end
        | Some Exn => (Exn, s)
        | Some UB => (UB, s)
        | Some Hang => (Hang, s)
        end
    end.

  (** [onChallengeResponse] (requester-request.cpp:240-249) *)
  Definition on_challenge_response (s : rstate) (ri : rinputs) (d : data) : res unit * rstate :=
    match check_reply (rs_profile s) d with
    | Ok _ => chal_decode E (ri_now ri) (d_content d) s
    | Exn => (Exn, s)
    | UB => (UB, s)
    | Hang => (Hang, s)
    end.

  (** [genCertFetchInterest] (requester-request.cpp:251-259): the Interest name and the forwarding hint. *)
  Definition gen_cert_fetch (s : rstate) : interest * option name :=
    (Interest (rs_issued s) None None,
     match rs_fwd s with [] => None | n => Some n end).

  (** [onCertFetchResponse] (requester-request.cpp:261-271): no signature check. *)
  Definition on_cert_fetch (d : cert) : res cert := if cert_ok d then Ok d else Exn.

  (** [ChallengePossession::fulfillParameters] (challenge-possession.cpp:226-246) for a certificate and key
      that are in the key chain. *)
  Definition fulfill_parameters (params : mmap) (issued : cert) (sk nonce : bytes) : mmap :=
    map (fun kv => if bytes_eqb (fst kv) K_CRED then (fst kv, enc_tlv (cert_tlv E issued))
                   else if bytes_eqb (fst kv) K_PROOF then (fst kv, o_sign E sk (MRaw nonce))
                   else kv) params.
End WithEnv.
