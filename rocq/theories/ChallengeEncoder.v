(** src/detail/challenge-encoder.cpp *)
From Verif Require Export Types.
Local Open Scope N_scope.

(** The plaintext of a CHALLENGE reply: [challengetlv::encodeDataContent] (challenge-encoder.cpp:28-45).
    [ndn::fromHex] throws on a malformed hexadecimal string. *)
Definition chal_plain (r : request) (issued fwd : name) : res (list tlv) :=
  do cs <- (match rq_cs r with
            | None => Ok []
            | Some c =>
                do nonce <- (if bytes_eqb (cs_status c) (bs "need-proof") then
                               do n <- of_opt (from_hex (match sec_get (bs "nonce") (cs_secrets c) with
                                                         | Some h => h
                                                         | None => []
                                                         end));
                               Ok [Tlv T_ParameterKey (bs "nonce"); Tlv T_ParameterValue n]
                             else Ok []);
                Ok ([Tlv T_ChallengeStatus (cs_status c);
                     Tlv T_RemainingTries (nni_enc (cs_tries c));
                     Tlv T_RemainingTime (nni_enc (to_u64 (cs_rtime c)))] ++ nonce)
            end);
  Ok (Tlv T_Status (nni_enc (rq_status r)) :: cs ++
      match issued with
      | [] => []
      | _ :: _ => [Tlv T_IssuedCertName (name_wire issued); Tlv T_ForwardingHint (name_wire fwd)]
      end).

(** [challengetlv::encodeDataContent] (challenge-encoder.cpp:25-52).  Result: the value of the Content
    block, and the request with its new encryption IV. *)
Definition chal_encode (E : env) (r : request) (issued fwd : name) (rnd8 : bytes) : res bytes * request :=
  match chal_plain r issued fwd with
  | Ok l => let (o, iv) := encode_aes E (rq_key r) (enc_tlvs l) (rq_id r) (rq_eiv r) rnd8 in (o, set_eiv iv r)
  | Exn => (Exn, r)
  | UB => (UB, r)
  | Hang => (Hang, r)
  end.

(** [now + time::seconds(n)] on int64_t nanoseconds; signed overflow is undefined. *)
Definition time_plus_secs (now : Z) (n : N) : res Z :=
  let d := sec (to_i64 n) in
  if ((- 2 ^ 63 <=? d) && (d <? 2 ^ 63) && (- 2 ^ 63 <=? now + d) && (now + d <? 2 ^ 63))%Z
  then Ok (now + d)%Z else UB.

(** The loop of [challengetlv::decodeDataContent] (challenge-encoder.cpp:63-118).  The requester state is
    updated as the loop runs, so a failure leaves it partly updated.  [all]: all elements
    ([data.get(tlv::Status)] reads the first Status); [nonce]: [lookingForNonce]; [ns]: [numStatus]. *)
Fixpoint chal_loop (now : Z) (all l : list tlv) (nonce : bool) (ns : nat) (s : rstate) : res nat * rstate :=
  match l with
  | [] => (Ok ns, s)
  | t :: l' =>
      if nonce then
        if t_type t =? T_ParameterValue then
          if blen (t_val t) =? 16 then chal_loop now all l' false ns (upd_nonce (t_val t) s)
          else (Exn, s)
        else (Exn, s)
      else if t_type t =? T_Status then
        match get T_Status all with
        | Some f => match status_from f with
                    | Some v => chal_loop now all l' false (S ns) (upd_status v s)
                    | None => (Exn, s)
                    end
        | None => (Exn, s)
        end
      else if t_type t =? T_ChallengeStatus then chal_loop now all l' false ns (upd_cstatus (t_val t) s)
      else if t_type t =? T_RemainingTries then
        match nni_dec (t_val t) with
        | Some n => chal_loop now all l' false ns (upd_tries (to_i32 n) s)
        | None => (Exn, s)
        end
      else if t_type t =? T_RemainingTime then
        match nni_dec (t_val t) with
        | Some n => match time_plus_secs now n with
                    | Ok tm => chal_loop now all l' false ns (upd_fresh tm s)
                    | _ => (UB, s)
                    end
        | None => (Exn, s)
        end
      else if t_type t =? T_IssuedCertName then
        match block_from_value (t_val t) with
        | Some b => match name_decode b with
                    | Some n => chal_loop now all l' false ns (upd_issued n s)
                    | None => (Exn, s)
                    end
        | None => (Exn, s)
        end
      else if t_type t =? T_ForwardingHint then
        match block_from_value (t_val t) with
        | Some b => match name_decode b with
                    | Some n => chal_loop now all l' false ns (upd_fwd n s)
                    | None => (Exn, s)
                    end
        | None => (Exn, s)
        end
      else if t_type t =? T_ParameterKey then
        if bytes_eqb (t_val t) (bs "nonce") then chal_loop now all l' true ns s else (Exn, s)
      else if is_critical (t_type t) then (Exn, s)
      else chal_loop now all l' false ns s
  end.

(** [challengetlv::decodeDataContent] (challenge-encoder.cpp:54-123).  [b]: the value of Content. *)
Definition chal_decode (E : env) (now : Z) (b : bytes) (s : rstate) : res unit * rstate :=
  let (o, iv) := decode_aes E (rs_key s) b (rs_id s) (rs_div s) (rs_eiv s) in
  let s1 := upd_div iv s in
  match o with
  | Ok pt =>
      match parse pt with
      | None => (Exn, s1)
      | Some els =>
          match chal_loop now els els false O s1 with
          | (Ok ns, s2) => (if Nat.eqb ns 1 then Ok tt else Exn, s2)
          | (Exn, s2) => (Exn, s2)
          | (UB, s2) => (UB, s2)
          | (Hang, s2) => (Hang, s2)
          end
      end
  | Exn => (Exn, s1)
  | UB => (UB, s1)
  | Hang => (Hang, s1)
  end.
