(** C74: exactly which messages the decoders accept, and what they read from them (Spec_Accept.v). *)
From Verif Require Import Spec_Accept AcceptFacts Samples CryptoFacts ErrorEncoder InfoEncoder ProbeEncoder RequestEncoder ChallengeEncoder.
From Verif Require NarrowFacts.
Local Open Scope N_scope.

(** An error other than "no error, no text" is reported exactly for these contents. *)
Theorem C74_error : forall b code info, code <> NO_ERROR \/ info <> [] -> (err_decode b = (code, info) <-> error_reads b code info).
Proof. exact err_decode_iff. Qed.
Print Assumptions C74_error.
Example C74_error_case : 5 <> NO_ERROR /\ err_decode (enc_tlvs [Tlv 1000 []; Tlv T_ErrorInfo (bs "no"); Tlv T_ErrorCode (nni_enc 5)]) = (5, bs "no").
Proof. meets. Qed.

(** CA profile.  Any element may be missing or repeated. *)
Theorem C74_info : forall E b p, info_decode E b = Ok p <-> info_reads E b p.
Proof. exact info_decode_iff. Qed.
Print Assumptions C74_info.
Example C74_info_case : info_decode toy (enc_tlvs [Tlv T_CaInfo (bs "one"); Tlv 1000 []; Tlv T_ParameterKey (bs "email"); Tlv T_CaInfo (bs "two");
    Tlv T_MaxValidityPeriod (nni_enc (2 ^ 63)); Tlv T_ParameterKey (bs "name")]) =
  Ok (Profile [] [] (bs "two") [bs "email"; bs "name"] (- 2 ^ 63) None [] None).
Proof. meets. Qed.

(** PROBE parameters. *)
Theorem C74_probe_params : forall b m, probe_params_decode b = Ok m <-> probe_params_reads b m.
Proof. exact params_decode_iff. Qed.
Print Assumptions C74_probe_params.
Example C74_probe_params_case :
  probe_params_decode (enc_tlvs [Tlv T_ParameterKey (bs "b"); Tlv T_ParameterValue (bs "1"); Tlv 1000 []; Tlv T_ParameterKey (bs "a"); Tlv T_ParameterValue (bs "2")]) =
    Ok [(bs "a", bs "2"); (bs "b", bs "1")] /\
  probe_params_decode (enc_tlvs [Tlv T_ParameterKey (bs "b")]) = Exn /\ probe_params_decode (enc_tlvs [Tlv T_ParameterValue (bs "b")]) = Exn.
Proof. meets. Qed.

(** PROBE reply. *)
Theorem C74_probe_reply : forall b names redirects, probe_decode b = Ok (names, redirects) <-> probe_reads b names redirects.
Proof. exact probe_decode_iff. Qed.
Print Assumptions C74_probe_reply.
Example C74_probe_reply_case :
  probe_decode (enc_tlvs [Tlv T_ProbeRedirect (name_wire x_keyloc);
      Tlv T_ProbeResponse (name_wire [] ++ enc_tlv (Tlv T_MaxSuffixLength (nni_enc 2)) ++ name_wire x_id)]) = Ok ([(x_id, 2%Z)], [x_keyloc]) /\
  probe_decode (enc_tlvs [Tlv T_ProbeResponse (name_wire x_id ++ name_wire x_id)]) = Exn.
Proof. meets. Qed.

(** NEW and REVOKE reply. *)
Theorem C74_new_reply : forall salt0 id0 b ecdh salt id chals,
  reply_decode salt0 id0 b = (Ok tt, Reply ecdh salt id chals) <-> reply_reads salt0 id0 b ecdh salt id chals.
Proof. exact reply_decode_iff. Qed.
Print Assumptions C74_new_reply.
Example C74_new_reply_case :
  reply_decode (bs "0123") (bs "abcd") (enc_tlvs [Tlv T_Challenge CH_PIN; Tlv T_Salt (bs "Z"); Tlv T_EcdhPub (bs "k"); Tlv 1000 []; Tlv T_RequestId (bs "ABCD"); Tlv T_Challenge CH_EMAIL]) =
    (Ok tt, Reply (bs "k") (bs "Z123") (bs "ABCD") [CH_PIN; CH_EMAIL]) /\
  fst (reply_decode (bs "0123") (bs "abcd") (enc_tlvs [Tlv T_Salt (bs "Z"); Tlv T_EcdhPub (bs "k")])) = Exn.
Proof. meets. Qed.

(** Encrypted blocks, on both sides. *)
Theorem C74_encrypted : forall E key block ad decIv encIv pt iv', decode_aes E key block ad decIv encIv = (Ok pt, iv') <->
  aes_reads E key ad decIv encIv block pt iv'.
Proof. exact aes_iff. Qed.
Print Assumptions C74_encrypted.
Example C74_encrypted_case :
  decode_aes toy (repeat x01 16) (sealed toy (repeat x01 16) (bs "abcdefgh0001") (bs "ad") (repeat x41 17)) (bs "ad") (bs "abcdefgh0001") (bs "ABCDEFGH0001") =
    (Ok (repeat x41 17), bs "abcdefgh0003").
Proof. meets. Qed.

(** CHALLENGE reply: what the requester's state becomes. *)
Theorem C74_challenge_reply : forall E now b s s', chal_decode E now b s = (Ok tt, s') <->
  exists pt, aes_reads E (rs_key s) (rs_id s) (rs_div s) (rs_eiv s) b pt (rs_div s') /\ challenge_reads now pt s s' /\ rest_kept s s'.
Proof. exact chal_decode_iff. Qed.
Print Assumptions C74_challenge_reply.
Example C74_challenge_reply_case :
  let els := [Tlv T_RemainingTries (nni_enc 3); Tlv T_ParameterKey (bs "nonce"); Tlv T_ParameterValue (repeat x41 16); Tlv T_Status (nni_enc 1); Tlv 1000 [];
              Tlv T_ChallengeStatus (bs "wait"); Tlv T_RemainingTime (nni_enc 60); Tlv T_ParameterKey (bs "nonce")] in
  match chal_decode toy x_now (sealed toy (rs_key x_sel) (bs "abcdefgh0001") (rs_id x_sel) (enc_tlvs els)) x_sel with
  | (Ok _, s) => rs_tries s = 3%Z /\ rs_nonce s = repeat x41 16 /\ rs_status s = 1 /\ rs_cstatus s = bs "wait" /\ rs_fresh s = (x_now + sec 60)%Z
  | _ => False
  end.
Proof. vm_compute. repeat split. Qed.
(** The numbers of these descriptions are the elements' values as the C++ types [int] and [int64_t] hold them. *)
Theorem C74_numbers : forall v, (forall z, as_i32 v z <-> exists n, nni_dec v = Some n /\ held 32 (Z.of_N n) z) /\ (forall z, as_i64 v z <-> exists n, nni_dec v = Some n /\ held 64 (Z.of_N n) z).
Proof. exact NarrowFacts.as_held. Qed.
Print Assumptions C74_numbers.
Example C74_numbers_case : as_i32 (nni_enc (2 ^ 32 + 5)) 5%Z /\ as_i64 (nni_enc (2 ^ 64 - 1)) (-1)%Z.
Proof. split; [exists (2 ^ 32 + 5)|exists (2 ^ 64 - 1)]; split; vm_compute; reflexivity. Qed.
