(** src/detail/info-encoder.cpp *)
From Verif Require Export Types.
Local Open Scope N_scope.

(** [infotlv::encodeDataContent] (info-encoder.cpp:29-50): the value of the Content block.
    [getKeyLocator().getName()] throws when the certificate has no key locator name. *)
Definition info_encode (E : env) (p : profile) (c : cert) : res bytes :=
  do info <- (match p_info p with
              | [] => do k <- of_opt (c_keyloc c); Ok (bs "Issued by " ++ o_to_uri E k)
              | _ :: _ => Ok (p_info p)
              end);
  Ok (enc_tlvs ([Tlv T_CaPrefix (name_wire (p_prefix p)); Tlv T_CaInfo info]
                ++ map (Tlv T_ParameterKey) (p_probe_keys p)
                ++ [Tlv T_MaxValidityPeriod (nni_enc (to_u64 (p_maxvalid p)));
                    Tlv T_CaCertificate (enc_tlv (cert_tlv E c))])).

Definition set_p_prefix v p := Profile v (p_fwd p) (p_info p) (p_probe_keys p) (p_maxvalid p) (p_maxsuffix p) (p_challenges p) (p_cert p).
Definition set_p_info v p := Profile (p_prefix p) (p_fwd p) v (p_probe_keys p) (p_maxvalid p) (p_maxsuffix p) (p_challenges p) (p_cert p).
Definition add_p_key v p := Profile (p_prefix p) (p_fwd p) (p_info p) (p_probe_keys p ++ [v]) (p_maxvalid p) (p_maxsuffix p) (p_challenges p) (p_cert p).
Definition set_p_maxvalid v p := Profile (p_prefix p) (p_fwd p) (p_info p) (p_probe_keys p) v (p_maxsuffix p) (p_challenges p) (p_cert p).
Definition set_p_cert v p := Profile (p_prefix p) (p_fwd p) (p_info p) (p_probe_keys p) (p_maxvalid p) (p_maxsuffix p) (p_challenges p) (Some v).

(** One iteration of the loop of [infotlv::decodeDataContent] (info-encoder.cpp:57-81). *)
Definition info_item (E : env) (t : tlv) (p : profile) : res profile :=
  if t_type t =? T_CaPrefix then
    do els <- of_opt (parse (t_val t));
    do n <- of_opt (get T_Name els);
    do nm <- of_opt (name_decode n);
    Ok (set_p_prefix nm p)
  else if t_type t =? T_CaInfo then Ok (set_p_info (t_val t) p)
  else if t_type t =? T_ParameterKey then Ok (add_p_key (t_val t) p)
  else if t_type t =? T_MaxValidityPeriod then
    do n <- of_opt (nni_dec (t_val t));
    Ok (set_p_maxvalid (to_i64 n) p)
  else if t_type t =? T_CaCertificate then
    do els <- of_opt (parse (t_val t));
    do d <- of_opt (get T_Data els);
    do c <- of_opt (cert_decode E d);
    Ok (set_p_cert c p)
  else if is_critical (t_type t) then Exn
  else Ok p.

Fixpoint info_loop (E : env) (l : list tlv) (p : profile) : res profile :=
  match l with
  | [] => Ok p
  | t :: l' => do p' <- info_item E t p; info_loop E l' p'
  end.

(** [infotlv::decodeDataContent] (info-encoder.cpp:52-84) *)
Definition info_decode (E : env) (b : bytes) : res profile :=
  do els <- of_opt (parse b); info_loop E els empty_profile.
