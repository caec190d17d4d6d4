(** src/detail/crypto-helpers.cpp *)
From Verif Require Export Env.
Local Open Scope N_scope.

(** [ECDHState::deriveSecret] (crypto-helpers.cpp:88-122).  Only the return code 0 is treated as a
    failure. *)
Definition derive_secret (E : env) (sk peer : bytes) : res bytes :=
  let (rc, s) := o_ecdh E sk peer in
  if (rc =? 0)%Z then Exn else Ok s.

(** [hkdf] (crypto-helpers.cpp:211-228), for the 16-byte output ndncert asks for.  Only the return
    code 0 is treated as a failure. *)
Definition hkdf (E : env) (secret salt info : bytes) : res bytes :=
  let (rc, k) := o_hkdf E secret salt info in
  if (rc =? 0)%Z then Exn else Ok k.

(** [loadBigU32(&iv[8])] (crypto-helpers.cpp:365-369) *)
Definition iv_counter (iv : bytes) : N := be_dec (firstn 4 (skipn 8 iv)).
(** The random component of an IV: its first eight bytes (crypto-helpers.cpp:399, 436, 444). *)
Definition iv_prefix (iv : bytes) : bytes := firstn 8 iv.

Definition u32_max : N := 4294967295.

(** Number of 16-byte AES blocks, as the uint32_t [increment] (crypto-helpers.cpp:376). *)
Definition aes_blocks (size : N) : N := ((size + 15) / 16) mod 2 ^ 32.

(** [updateIv] (crypto-helpers.cpp:371-385).  An IV shorter than 12 bytes violates the BOOST_ASSERT and
    is read out of bounds. *)
Definition update_iv (iv : bytes) (payload_size : N) : res bytes :=
  if blen iv <? 12 then UB
  else
    let counter := iv_counter iv in
    let increment := aes_blocks payload_size in
    if (u32_max - counter) <=? increment then Exn
    else Ok (iv_prefix iv ++ be_enc 4 (counter + increment) ++ skipn 12 iv).

(** [encodeBlockWithAesGcm128] (crypto-helpers.cpp:387-414).  [rnd8]: the bytes drawn by
    [generateSecureBytes]; they are used only when [encryptionIv] is empty.  Result: outcome with the
    value of the block, and the new encryption IV (changed even when [updateIv] throws).  A non-empty IV
    of less than 12 bytes is read out of bounds. *)
Definition initial_iv (iv rnd8 : bytes) : bytes :=
  match iv with
  | [] => rnd8 ++ [x00; x00; x00; x00]
  | _ :: _ => iv
  end.

Definition encode_aes (E : env) (key payload ad iv rnd8 : bytes) : res bytes * bytes :=
  let iv1 := initial_iv iv rnd8 in
  if blen iv1 <? 12 then (UB, iv1)
  else
    let (ct, tag) := o_aes_enc E key (firstn 12 iv1) ad payload in
    let content := enc_tlvs [Tlv T_InitializationVector iv1; Tlv T_AuthenticationTag tag;
                             Tlv T_EncryptedPayload ct] in
    match update_iv iv1 (blen payload) with
    | Ok iv2 => (Ok content, iv2)
    | Exn => (Exn, iv1)
    | UB => (UB, iv1)
    | Hang => (Hang, iv1)
    end.

(** [decodeBlockWithAesGcm128] (crypto-helpers.cpp:416-457).  [block]: the value of the block.  Result:
    the outcome, and the new decryption IV: it is assigned before the tag is checked
    (crypto-helpers.cpp:446), so it changes even when decryption fails.  A stored [encIv] of 1..7 bytes or
    [decIv] of 1..11 bytes is read out of bounds. *)
Definition decode_aes (E : env) (key block ad decIv encIv : bytes) : res bytes * bytes :=
  match parse block with
  | None => (Exn, decIv)
  | Some els =>
  match get T_EncryptedPayload els, get T_InitializationVector els with
  | Some p, Some ivt =>
      if negb (blen (t_val ivt) =? 12) then (Exn, decIv)
      else match get T_AuthenticationTag els with
      | None => (Exn, decIv)
      | Some tagt =>
      if negb (blen (t_val tagt) =? 16) then (Exn, decIv)
      else
        let obs := t_val ivt in
        let ub_enc := match encIv with [] => false | _ :: _ => blen encIv <? 8 end in
        let bad_enc := match encIv with
                       | [] => false
                       | _ :: _ => bytes_eqb (iv_prefix obs) (iv_prefix encIv)
                       end in
        let ub_dec := match decIv with [] => false | _ :: _ => blen decIv <? 12 end in
        let bad_dec := match decIv with
                       | [] => false
                       | _ :: _ => (iv_counter obs <? iv_counter decIv) ||
                                   negb (bytes_eqb (iv_prefix obs) (iv_prefix decIv))
                       end in
        if ub_enc then (UB, decIv)
        else if bad_enc then (Exn, decIv)
        else if ub_dec then (UB, decIv)
        else if bad_dec then (Exn, decIv)
        else match o_aes_dec E key obs ad (t_val p) (t_val tagt) with
             | None => (Exn, obs)
             | Some pt =>
                 if negb (blen pt =? blen (t_val p)) then (Exn, obs)
                 else match update_iv obs (blen pt) with
                      | Ok iv2 => (Ok pt, iv2)
                      | Exn => (Exn, obs)
                      | UB => (UB, obs)
                      | Hang => (Hang, obs)
                      end
             end
      end
  | _, _ => (Exn, decIv)
  end
  end.

(** [hmacSha256] over the certificate name, keyed with the per-process key, truncated to the 8-byte
    request ID (ca-module.cpp:320-333, crypto-helpers.cpp:200-209). *)
Definition request_id_of (E : env) (key : bytes) (n : name) : bytes :=
  firstn 8 (o_hmac E key (name_wire n)).
