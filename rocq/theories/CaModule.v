(** src/ca-module.cpp *)
From Verif Require Export CaConfig Storage ErrorEncoder InfoEncoder ProbeEncoder RequestEncoder ChallengeEncoder.
Local Open Scope N_scope.

(** What a running CA is configured with (ca-module.hpp:98-101, ca-module.cpp:46-53, 125, 211-214, 490): the loaded configuration file, the challenge modules' settings,
    and the default certificate, signing key and key locator of the CA identity in the key chain (the
    identity is assumed to exist and to keep them). *)
Record ca_cfg : Type := CaCfg {
  cf : config;
  cf_chal : chal_cfg;
  cf_cert : cert;
  cf_sk : bytes;
  cf_keyloc : name
}.
Definition cfp (g : ca_cfg) : profile := cf_profile (cf g).

(** The observable effects of a handler, in program order.  [EIssue] marks the signing of an issued
    certificate (ca-module.cpp:490), [EProfile] the assignment of the cached profile packet
    (ca-module.cpp:131). *)
Inductive eff : Type :=
| EAdd (r : request)
| EUpdate (r : request)
| EDelete (id : bytes)
| EPut (d : data)
| ECallback (r : request)
| EEmail (cmd : bytes)
| EIssue (c : cert)
| EProfile (d : data).

(** Effects and outcome of a handler (ca-module.hpp:67-94). *)
Definition hout : Type := list eff * res unit.

(** src/ca-module.cpp:41-42 *)
Definition data_freshness : Z := sec 1.
Definition grace : Z := sec 120.

Definition c_CA : comp := gc (bs "CA").
Definition segment0 : comp := Tlv T_Segment (nni_enc 0).
(** [MetadataObject::getKeywordComponent] (ndn-cxx; ca-module.cpp:84, 150) *)
Definition c_metadata : comp := Tlv T_Keyword (bs "metadata").

Section WithEnv.
  Context (E : env) (g : ca_cfg).

  (** A Data packet signed by the CA identity (ca-module.cpp:135, 151, 202, 364, 466, 530). *)
  Definition mk_data (n : name) (content : bytes) (fresh : Z) (final : option comp) : data :=
    Data n content fresh final (o_sign E (cf_sk g) (MData n content fresh final)).
  (** A reply: the Interest name, freshness 1 s (ca-module.cpp:196-202, 358-365, 462-466). *)
  Definition reply_data (n : name) (content : bytes) : data := mk_data n content data_freshness None.
  (** [generateErrorDataPacket] (ca-module.cpp:523-532) *)
  Definition error_data (n : name) (code : N) (info : bytes) : data := reply_data n (err_encode code info).
  Definition put_error (x : interest) (code : N) (info : bytes) : hout :=
    ([EPut (error_data (i_name x) code info)], Ok tt).

  Definition params_of (x : interest) : bytes := match i_params x with Some p => p | None => [] end.

  (** The name assignment functions after the constructor (ca-module.cpp:57-59). *)
  Definition assigns : list assign :=
    match cf_assign (cf g) with
    | [] => [Assign ARandom []]
    | l => l
    end.

  (** [getCaProfileData] (ca-module.cpp:121-138) *)
  Definition profile_data (prof : option data) (version : N) : res data :=
    match prof with
    | Some d => Ok d
    | None =>
        do content <- info_encode E (cfp g) (cf_cert g);
        Ok (mk_data (p_prefix (cfp g) ++ [c_CA; gc (bs "INFO"); version_comp version; segment0])
                    content data_freshness (Some segment0))
    end.
  Definition on_get_profile (prof : option data) (i : inputs) : list eff * res data :=
    match profile_data prof (in_version i) with
    | Ok d => (match prof with Some _ => [] | None => [EProfile d] end, Ok d)
    | Exn => ([], Exn)
    | UB => ([], UB)
    | Hang => ([], Hang)
    end.

  (** [onCaProfileDiscovery] (ca-module.cpp:140-152).  [MetadataObject::makeData] appends a version and a
      segment number to the given name; its content is the Name TLV, its freshness 10 ms. *)
  Definition on_discovery (prof : option data) (i : inputs) (x : interest) : hout :=
    match on_get_profile prof i with
    | (es, Ok d) =>
        let versioned := prefix_neg 1 (d_name d) in
        let n := prefix_neg 2 (d_name d) ++ [c_metadata; version_comp (in_mversion i); segment0] in
        (es ++ [EPut (mk_data n (name_wire versioned) 10000000 (Some segment0))], Ok tt)
    | (es, Exn) => (es, Exn)
    | (es, UB) => (es, UB)
    | (es, Hang) => (es, Hang)
    end.

  (** The redirections of a PROBE (ca-module.cpp:166-171); a null certificate pointer is dereferenced. *)
  Fixpoint redirects (l : list (option cert * policy)) (params : mmap) : res (list name) :=
    match l with
    | [] => Ok []
    | (c, p) :: l' =>
        if is_redirecting p params then
          match c with
          | None => UB
          | Some c' => do r <- redirects l' params; Ok (full_name E c' :: r)
          end
        else redirects l' params
    end.
  (** The name suffixes of a PROBE (ca-module.cpp:174-177); [ws]: the words drawn by AssignmentRandom, one
      for each such function. *)
  Fixpoint suffixes (l : list assign) (ws : list N) (params : mmap) : res (list name) :=
    match l with
    | [] => Ok []
    | a :: l' =>
        let (w, ws') := match a_kind a with ARandom => (hd 0 ws, tl ws) | _ => (0, ws) end in
        do ns <- assign_name E a w params;
        do r <- suffixes l' ws' params;
        Ok (ns ++ r)
    end.

  (** [onProbe] (ca-module.cpp:154-205) *)
  Definition on_probe (i : inputs) (x : interest) : hout :=
    match (do params <- probe_params_decode (params_of x);
           do reds <- redirects (cf_redirect (cf g)) params;
           do sufs <- suffixes assigns (in_words64 i) params;
           Ok (reds, sufs)) with
    | Exn => ([], Ok tt)
    | UB => ([], UB)
    | Hang => ([], Hang)
    | Ok ([], []) =>
        put_error x INVALID_PARAMETER (bs "Cannot generate available names from parameters provided.")
    | Ok (reds, sufs) =>
        ([EPut (reply_data (i_name x)
                  (probe_encode (map (fun s => p_prefix (cfp g) ++ s) sufs) (p_maxsuffix (cfp g)) reds))],
         Ok tt)
    end.

  (** The name check of [onNewRenewRevoke] (ca-module.cpp:265-281); [false]: NAME_NOT_ALLOWED. *)
  Definition name_allowed (n : name) : bool :=
    let id := identity_of n in
    is_prefix (p_prefix (cfp g)) id && valid_cert_name n &&
    Nat.ltb (length (p_prefix (cfp g))) (length id) &&
    match p_maxsuffix (cfp g) with
    | Some k => N.of_nat (length id) <=? (N.of_nat (length (p_prefix (cfp g))) + k) mod 2 ^ 64
    | None => true
    end.

  (** The validity check of [onNewRenewRevoke] (ca-module.cpp:285-294); [false]: BAD_VALIDITY_PERIOD. *)
  Definition period_allowed (now : Z) (nb na : Z) : bool :=
    negb ((nb <? now - grace)%Z || (now + sec (p_maxvalid (cfp g)) <? na)%Z || (na <=? nb)%Z).

  (** What [onNewRenewRevoke] stores (ca-module.cpp:334-347). *)
  Definition new_request (id : bytes) (rt : N) (c : cert) (key : bytes) : request :=
    Request (p_prefix (cfp g)) id rt ST_BEFORE c key [] [] [] None.

  Definition msg_name : bytes := bs "An invalid certificate name is being requested.".

  (** Certificate and Interest checks that depend on the request type (ca-module.cpp:283-318): [Ok None]
      passes, [Ok (Some e)] is answered with an error, [Exn] escapes (no validity period). *)
  Definition type_checks (rt : N) (now : Z) (x : interest) (c : cert) : res (option (N * bytes)) :=
    if rt =? RT_NEW then
      do v <- of_opt (c_validity c);
      if negb (period_allowed now (fst v) (snd v))
      then Ok (Some (BAD_VALIDITY_PERIOD, bs "An invalid validity period is being requested."))
      else if negb (verify_cert E c c)
      then Ok (Some (BAD_SIGNATURE, bs "Invalid signature in the self-signed certificate."))
      else if negb (verify_interest E x c)
      then Ok (Some (BAD_SIGNATURE, bs "Invalid signature in the Interest packet."))
      else Ok None
    else if rt =? RT_REVOKE then
      if negb (verify_cert E c (cf_cert g))
      then Ok (Some (BAD_SIGNATURE, bs "Invalid signature in the certificate to revoke."))
      else Ok None
    else Ok None.

  (** [onNewRenewRevoke] (ca-module.cpp:207-369).  [add]: the storage's addRequest ([false] = throws).
      [hmacSha256] is taken not to fail. *)
  Definition on_new (add_ok : request -> bool) (idkey : bytes) (i : inputs) (rt : N) (x : interest) : hout :=
    match cert_is_valid (in_t1 i) (cf_cert g) with
    | Exn => ([], Exn)
    | UB => ([], UB)
    | Hang => ([], Hang)
    | Ok false => put_error x BAD_VALIDITY_PERIOD (bs "Server certificate invalid/expired")
    | Ok true =>
    match req_decode E rt (params_of x) with
    | UB => ([], UB)
    | Hang => ([], Hang)
    | Exn =>
        put_error x INVALID_PARAMETER
          (match i_params x with
           | None => bs "Empty TLV obtained from the Interest parameter."
           | Some _ => bs "Unrecognized self-signed certificate."
           end)
    | Ok (peer, c) =>
    match peer with
    | [] => put_error x INVALID_PARAMETER (bs "Empty ECDH PUB obtained from the Interest parameter.")
    | _ :: _ =>
    match derive_secret E (in_sk i) peer with
    | UB => ([], UB)
    | Hang => ([], Hang)
    | Exn => put_error x INVALID_PARAMETER (bs "Cannot derive a shared secret using the provided ECDH key.")
    | Ok secret =>
    if negb (name_allowed (c_name c)) then put_error x NAME_NOT_ALLOWED msg_name
    else match type_checks rt (in_t2 i) x c with
    | Exn => ([], Exn)
    | UB => ([], UB)
    | Hang => ([], Hang)
    | Ok (Some (code, info)) => put_error x code info
    | Ok None =>
        let id := request_id_of E idkey (c_name c) in
        match hkdf E secret (rnd_salt i) id with
        | Exn => ([], Exn)
        | UB => ([], UB)
        | Hang => ([], Hang)
        | Ok key =>
            let r := new_request id rt c key in
            if negb (add_ok r)
            then put_error x INVALID_PARAMETER
                   (bs "Duplicate Request ID: The same request has been seen before.")
            else
              ([EAdd r;
                EPut (reply_data (i_name x)
                        (reply_encode (o_ecdh_pub E (in_sk i)) (rnd_salt i) id (p_challenges (cfp g))));
                ECallback r], Ok tt)
        end
    end
    end
    end
    end
    end.

  (** [issueCertificate] (ca-module.cpp:473-493); throws if the request has no validity period. *)
  Definition issue_certificate (version : N) (r : request) : res cert :=
    do v <- of_opt (c_validity (rq_cert r));
    let n := key_name_of (c_name (rq_cert r)) ++ [gc (bs "NDNCERT"); version_comp version] in
    let content := c_content (rq_cert r) in
    Ok (Cert n true content (Some v) (Some (cf_keyloc g)) []
          (o_sign E (cf_sk g) (MCert n true content (Some v) (Some (cf_keyloc g)) []))).

  (** The request ID read by [getCertificateRequest] (ca-module.cpp:495-505): the component after
      <prefix>/CA/CHALLENGE is copied into 8 bytes; a longer one overflows the array, a shorter one leaves
      bytes that are then used uninitialised.  [Exn] (no such component) is caught by the caller. *)
  Definition challenge_id (n : name) : res bytes :=
    match nth_error n (length (p_prefix (cfp g)) + 2) with
    | None => Exn
    | Some c => if blen (t_val c) =? 8 then Ok (t_val c) else UB
    end.

  (** The end of [onChallenge]: reply and callback (ca-module.cpp:462-470). *)
  Definition finish (x : interest) (es : list eff) (payload : bytes) (r : request) : hout :=
    (es ++ [EPut (reply_data (i_name x) payload); ECallback r], Ok tt).

  (** [onChallenge] from the point where the challenge module has accepted the request
      (ca-module.cpp:435-470).  [es]: effects so far. *)
  Definition after_challenge (i : inputs) (x : interest) (es : list eff) (r : request) : hout :=
    if rq_status r =? ST_PENDING then
      if (rq_type r =? RT_NEW) || (rq_type r =? RT_RENEW) then
        match issue_certificate (in_version i) r with
        | Exn => (es, Exn)
        | UB => (es, UB)
        | Hang => (es, Hang)
        | Ok c =>
            let r2 := set_status ST_SUCCESS (set_cert c r) in
            let es2 := es ++ [EIssue c; EDelete (rq_id r)] in
            match chal_encode E r2 (c_name c) (p_fwd (cfp g)) (rnd_iv i) with
            | (Ok payload, r3) => finish x es2 payload r3
            | (Exn, _) => (es2, Exn)
            | (UB, _) => (es2, UB)
            | (Hang, _) => (es2, Hang)
            end
        end
      else if rq_type r =? RT_REVOKE then
        let r2 := set_status ST_SUCCESS r in
        let es2 := es ++ [EDelete (rq_id r)] in
        match chal_encode E r2 [] [] (rnd_iv i) with
        | (Ok payload, r3) => finish x es2 payload r3
        | (Exn, _) => (es2, Exn)
        | (UB, _) => (es2, UB)
        | (Hang, _) => (es2, Hang)
        end
      else (es, Exn)      (* setContent of a default-constructed Block throws *)
    else
      match chal_encode E r [] [] (rnd_iv i) with
      | (Ok payload, r3) => finish x (es ++ [EUpdate r3]) payload r3
      | (Exn, _) => (es, Exn)
      | (UB, _) => (es, UB)
      | (Hang, _) => (es, Hang)
      end.

  (** Drops the request and answers with an error (ca-module.cpp:400-403, 407-410, 421-424, 430-432). *)
  Definition drop_error (x : interest) (es : list eff) (id : bytes) (code : N) (info : bytes) : hout :=
    (es ++ [EDelete id; EPut (error_data (i_name x) code info)], Ok tt).

  (** [onChallenge] (ca-module.cpp:371-471).  [get_req]: the storage's getRequest ([None] = throws). *)
  Definition on_challenge (get_req : bytes -> option request) (i : inputs) (x : interest) : hout :=
    match (match challenge_id (i_name x) with
           | Ok id => Ok (get_req id)
           | Exn => Ok None
           | UB => UB
           | Hang => Hang
           end) with
    | UB => ([], UB)
    | Hang => ([], Hang)
    | Exn => ([], Exn)
    | Ok None => put_error x INVALID_PARAMETER (bs "No certificate request state can be found.")
    | Ok (Some r) =>
    if negb (verify_interest E x (rq_cert r))
    then put_error x BAD_SIGNATURE (bs "Invalid Signature in the Interest packet.")
    else
      let (o, iv) := decode_aes E (rq_key r) (params_of x) (rq_id r) (rq_div r) (rq_eiv r) in
      match o with
      | UB => ([], UB)
      | Hang => ([], Hang)
      | Exn => drop_error x [] (rq_id r) INVALID_PARAMETER (bs "Interest paramaters decryption failed.")
      | Ok [] => drop_error x [] (rq_id r) INVALID_PARAMETER (bs "No parameters are found after decryption.")
      | Ok pt =>
      match parse pt with
      | None => ([], Exn)
      | Some params =>
      match get T_SelectedChallenge params with
      | None => ([], Exn)
      | Some ct =>
      match handle_challenge E (cf_chal g) i (t_val ct) params (set_div iv r) with
      | None => drop_error x [] (rq_id r) INVALID_PARAMETER (bs "Unrecognized challenge type.")
      | Some h =>
          let es := match h_email h with Some cmd => [EEmail cmd] | None => [] end in
          match h_out h with
          | Exn => (es, Exn)
          | UB => (es, UB)
          | Hang => (es, Hang)
          | Ok (code, info) =>
              if negb (code =? NO_ERROR) then drop_error x es (rq_id r) code info
              else after_challenge i x es (h_req h)
          end
      end
      end
      end
      end
    end.

  (** The Interest filters set by [registerPrefix] (ca-module.cpp:74-113). *)
  Inductive verb : Type := VInfo | VProbe | VNew | VChallenge | VRevoke.
  Definition filters : list (name * verb) :=
    let p := p_prefix (cfp g) ++ [c_CA] in
    [(p ++ [gc (bs "INFO"); c_metadata], VInfo);
     (p ++ [gc (bs "PROBE")], VProbe);
     (p ++ [gc (bs "NEW")], VNew);
     (p ++ [gc (bs "CHALLENGE")], VChallenge);
     (p ++ [gc (bs "REVOKE")], VRevoke)].
  (** [Face] (ndn-cxx) calls the handler of every filter whose prefix matches (ca-module.cpp:84-107). *)
  Definition dispatch (n : name) : list verb :=
    map snd (filter (fun f => is_prefix (fst f) n) filters).
End WithEnv.

(** ** The CA as a state machine over a storage *)

(** The members that change while the CA runs (ca-module.hpp:100-103). *)
Record ca_state (S : Type) : Type := CaState { ca_store : S; ca_idkey : bytes; ca_prof : option data }.
Arguments CaState {S} _ _ _.
Arguments ca_store {S} _.
Arguments ca_idkey {S} _.
Arguments ca_prof {S} _.

Section WithStore.
  Context (E : env) (g : ca_cfg) {S : Type} (ops : store_ops S).

  (** What an effect does to the members (ca-module.cpp:131, 349, 400, 407, 421, 430, 442, 450, 458).  A handler only emits [EAdd] when
      addRequest succeeds. *)
  Definition apply_eff (e : eff) (s : ca_state S) : ca_state S :=
    match e with
    | EAdd r => match s_add ops (ca_store s) r with
                | Some st => CaState st (ca_idkey s) (ca_prof s)
                | None => s
                end
    | EUpdate r => match s_update ops (ca_store s) r with
                   | Some st => CaState st (ca_idkey s) (ca_prof s)
                   | None => s
                   end
    | EDelete id => CaState (s_delete ops (ca_store s) id) (ca_idkey s) (ca_prof s)
    | EProfile d => CaState (ca_store s) (ca_idkey s) (Some d)
    | EPut _ | ECallback _ | EEmail _ | EIssue _ => s
    end.
  Definition apply_effs (es : list eff) (s : ca_state S) : ca_state S :=
    fold_left (fun s e => apply_eff e s) es s.

  (** One handler call (ca-module.cpp:84-107). *)
  Definition handle (v : verb) (s : ca_state S) (i : inputs) (x : interest) : hout :=
    let add_ok r := match s_add ops (ca_store s) r with Some _ => true | None => false end in
    match v with
    | VInfo => on_discovery E g (ca_prof s) i x
    | VProbe => on_probe E g i x
    | VNew => on_new E g add_ok (ca_idkey s) i RT_NEW x
    | VChallenge => on_challenge E g (s_get ops (ca_store s)) i x
    | VRevoke => on_new E g add_ok (ca_idkey s) i RT_REVOKE x
    end.

  (** All handlers called for an Interest (ca-module.cpp:84-107), one after the other (never more than one,
      [Properties_Ca.C61]). *)
  Fixpoint handle_all (vs : list verb) (s : ca_state S) (i : inputs) (x : interest) : hout :=
    match vs with
    | [] => ([], Ok tt)
    | v :: vs' =>
        match handle v s i x with
        | (es, Ok _) => let (es', o) := handle_all vs' (apply_effs es s) i x in (es ++ es', o)
        | (es, o) => (es, o)
        end
    end.
  Definition on_interest (s : ca_state S) (i : inputs) (x : interest) : hout :=
    handle_all (dispatch g (i_name x)) s i x.
End WithStore.
