(** src/detail/request-encoder.cpp *)
From Verif Require Export Types.
Local Open Scope N_scope.

(** [requesttlv::encodeApplicationParameters] (request-encoder.cpp:29-44) *)
Definition req_encode (E : env) (rt : N) (ecdh : bytes) (c : cert) : bytes :=
  enc_tlvs (Tlv T_EcdhPub ecdh ::
            (if (rt =? RT_NEW) || (rt =? RT_RENEW) then [Tlv T_CertRequest (enc_tlv (cert_tlv E c))]
             else if rt =? RT_REVOKE then [Tlv T_CertToRevoke (enc_tlv (cert_tlv E c))]
             else [])).

(** The loop of [requesttlv::decodeApplicationParameters] (request-encoder.cpp:57-75).  State: ecdhPub,
    clientCert, and the two counters. *)
Fixpoint req_loop (E : env) (rt : N) (l : list tlv) (st : bytes * option cert * nat * nat)
  : res (bytes * option cert * nat * nat) :=
  match l with
  | [] => Ok st
  | t :: l' =>
      let '(e, c, ec, pc) := st in
      if t_type t =? T_EcdhPub then req_loop E rt l' (t_val t, c, S ec, pc)
      else if ((rt =? RT_NEW) && (t_type t =? T_CertRequest)) ||
              ((rt =? RT_REVOKE) && (t_type t =? T_CertToRevoke)) then
        do els <- of_opt (parse (t_val t));
        do d <- of_opt (get T_Data els);
        do c' <- of_opt (cert_decode E d);
        req_loop E rt l' (e, Some c', ec, S pc)
      else if is_critical (t_type t) then Exn
      else req_loop E rt l' st
  end.

(** [requesttlv::decodeApplicationParameters] (request-encoder.cpp:46-82).  [b]: the value of the
    block (empty for an absent ApplicationParameters). *)
Definition req_decode (E : env) (rt : N) (b : bytes) : res (bytes * cert) :=
  do els <- of_opt (parse b);
  do st <- req_loop E rt els ([], None, O, O);
  let '(e, c, ec, pc) := st in
  if negb (Nat.eqb ec 1) || negb (Nat.eqb pc 1) then Exn
  else match c with Some c' => Ok (e, c') | None => Exn end.

(** [requesttlv::encodeDataContent] (request-encoder.cpp:84-99) *)
Definition reply_encode (ecdh salt id : bytes) (challenges : list bytes) : bytes :=
  enc_tlvs ([Tlv T_EcdhPub ecdh; Tlv T_Salt salt; Tlv T_RequestId id] ++ map (Tlv T_Challenge) challenges).

(** [std::memcpy(dst, src, size)] into a buffer of [length dst] bytes: writing past its end is undefined
    behaviour; a shorter source leaves the tail of the buffer as it was. *)
Definition memcpy_into (dst src : bytes) : res bytes :=
  if Nat.ltb (length dst) (length src) then UB else Ok (src ++ skipn (length src) dst).

Record reply : Type := Reply {
  rp_ecdh : bytes; rp_salt : bytes; rp_id : bytes; rp_challenges : list bytes
}.

(** The loop of [requesttlv::decodeDataContent] (request-encoder.cpp:107-129).  The caller's buffers are
    written as the loop runs, so they are part of the result in every case. *)
Fixpoint reply_loop (l : list tlv) (r : reply) (ec sc ic : nat) : res (nat * nat * nat) * reply :=
  match l with
  | [] => (Ok (ec, sc, ic), r)
  | t :: l' =>
      if t_type t =? T_Challenge then
        reply_loop l' (Reply (rp_ecdh r) (rp_salt r) (rp_id r) (rp_challenges r ++ [t_val t])) ec sc ic
      else if t_type t =? T_EcdhPub then
        reply_loop l' (Reply (t_val t) (rp_salt r) (rp_id r) (rp_challenges r)) (S ec) sc ic
      else if t_type t =? T_Salt then
        match memcpy_into (rp_salt r) (t_val t) with
        | Ok s => reply_loop l' (Reply (rp_ecdh r) s (rp_id r) (rp_challenges r)) ec (S sc) ic
        | _ => (UB, r)
        end
      else if t_type t =? T_RequestId then
        match memcpy_into (rp_id r) (t_val t) with
        | Ok s => reply_loop l' (Reply (rp_ecdh r) (rp_salt r) s (rp_challenges r)) ec sc (S ic)
        | _ => (UB, r)
        end
      else if is_critical (t_type t) then (Exn, r)
      else reply_loop l' r ec sc ic
  end.

(** [requesttlv::decodeDataContent] (request-encoder.cpp:101-137).  [salt0], [id0]: the contents of the
    caller's buffers before the call. *)
Definition reply_decode (salt0 id0 : bytes) (b : bytes) : res unit * reply :=
  let r0 := Reply [] salt0 id0 [] in
  match parse b with
  | None => (Exn, r0)
  | Some els =>
      match reply_loop els r0 O O O with
      | (Ok (ec, sc, ic), r) =>
          (if negb (Nat.eqb ec 1) || negb (Nat.eqb sc 1) || negb (Nat.eqb ic 1) then Exn else Ok tt, r)
      | (Exn, r) => (Exn, r)
      | (UB, r) => (UB, r)
      | (Hang, r) => (Hang, r)
      end
  end.
