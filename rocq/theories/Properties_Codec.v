(** Properties of the wire formats: C01 to C08 and C55. *)
From Verif Require Export CodecWitness.
From Verif Require NarrowFacts.
Local Open Scope N_scope.

(** ** C01: error replies survive the wire *)
Theorem C01_error_roundtrip : forall code info, code < 2 ^ 64 -> fits info ->
  err_decode (err_encode code info) = (code, info).
Proof. exact err_roundtrip. Qed.
Print Assumptions C01_error_roundtrip.
Example C01_roundtrip_case : NAME_NOT_ALLOWED < 2 ^ 64 /\ fits (bs "not under the CA prefix").
Proof. meets. Qed.

(** An error is reported only for a block with one ErrorCode, one ErrorInfo and no unknown critical
    element, and then it is the one in the block. *)
Theorem C01_error_strict : forall b code info, err_decode b = (code, info) -> (code <> NO_ERROR \/ info <> []) ->
  exists els c s, parse b = Some els /\ count T_ErrorCode els = 1%nat /\ count T_ErrorInfo els = 1%nat /\
    only_known_critical known_error els /\ In c els /\ In s els /\
    t_type c = T_ErrorCode /\ t_type s = T_ErrorInfo /\ nni_dec (t_val c) = Some code /\ t_val s = info.
Proof. exact err_decode_only_if. Qed.
Print Assumptions C01_error_strict.
Example C01_strict_case :
  let b := enc_tlvs [Tlv 1000 (bs "ignored"); Tlv T_ErrorInfo (bs "no"); Tlv T_ErrorCode (nni_enc 5)] in
  err_decode b = (5, bs "no") /\ 5 <> NO_ERROR.
Proof. meets. Qed.
(** Two error codes: not an error as far as the requester can see. *)
Example C01_two_codes :
  err_decode (enc_tlvs [Tlv T_ErrorCode (nni_enc 5); Tlv T_ErrorCode (nni_enc 5); Tlv T_ErrorInfo (bs "no")]) = (NO_ERROR, []).
Proof. meets. Qed.

(** ** C02: the CA profile survives the INFO packet *)
Theorem C02_profile_roundtrip : forall E p c content, codec_laws E ->
  name_fits (p_prefix p) -> fits (p_info p) -> Forall fits (p_probe_keys p) ->
  (forall k, c_keyloc c = Some k -> fits (bs "Issued by " ++ o_to_uri E k)) ->
  (- 2 ^ 63 <= p_maxvalid p < 2 ^ 63)%Z -> wf_cert c -> cert_ok c = true -> fits (enc_tlv (cert_tlv E c)) ->
  info_encode E p c = Ok content ->
  exists info, info_decode E content =
    Ok (Profile (p_prefix p) [] info (p_probe_keys p) (p_maxvalid p) None [] (Some c)) /\
    ((p_info p <> [] /\ info = p_info p) \/
     (p_info p = [] /\ exists k, c_keyloc c = Some k /\ info = bs "Issued by " ++ o_to_uri E k)).
Proof. exact info_roundtrip. Qed.
Print Assumptions C02_profile_roundtrip.
Example C02_case :
  codec_laws toy /\ name_fits (p_prefix x_profile) /\ fits (p_info x_profile) /\ Forall fits (p_probe_keys x_profile) /\
  (- 2 ^ 63 <= p_maxvalid x_profile < 2 ^ 63)%Z /\ wf_cert x_ca_cert /\ cert_ok x_ca_cert = true /\
  fits (enc_tlv (cert_tlv toy x_ca_cert)) /\
  info_encode toy x_profile x_ca_cert = Ok (match info_encode toy x_profile x_ca_cert with Ok b => b | _ => [] end).
Proof. meets. Qed.
Example C02_keyloc_case : forall k, c_keyloc x_ca_cert = Some k -> fits (bs "Issued by " ++ o_to_uri toy k).
Proof. intros k H. assert (k = x_keyloc) as -> by (vm_compute in H; vm_compute; congruence). meets. Qed.
(** Encoding fails only for an empty description and a certificate without key locator name. *)
Theorem C02_encode_total : forall E p c, p_info p <> [] \/ c_keyloc c <> None -> exists content, info_encode E p c = Ok content.
Proof. exact info_encode_total. Qed.
Print Assumptions C02_encode_total.

(** ** C03: PROBE parameters survive the wire *)
Theorem C03_probe_params_roundtrip : forall m, mm_sorted m -> Forall (fun kv => fits (fst kv) /\ fits (snd kv)) m ->
  probe_params_decode (probe_params_encode m) = Ok m.
Proof. exact probe_params_roundtrip. Qed.
Print Assumptions C03_probe_params_roundtrip.
(** [mm_sorted] holds of every multimap. *)
Theorem C03_every_multimap : forall l, mm_sorted (mm_of l).
Proof. exact mm_of_is_sorted. Qed.
Print Assumptions C03_every_multimap.
Example C03_case :
  let m := mm_of [(bs "name", bs "b"); (bs "email", []); (bs "name", bs "a"); ([], bs "x")] in
  m = [([], bs "x"); (bs "email", []); (bs "name", bs "b"); (bs "name", bs "a")] /\
  Forall (fun kv => fits (fst kv) /\ fits (snd kv)) m /\ probe_params_decode (probe_params_encode m) = Ok m.
Proof. meets. Qed.

(** ** C04: PROBE responses survive the wire *)
Theorem C04_probe_roundtrip : forall ids max reds, Forall (probe_fits max) ids -> Forall (fun n => n <> []) ids ->
  Forall name_fits reds -> (forall k, max = Some k -> k < 2 ^ 64) ->
  probe_decode (probe_encode ids max reds) = Ok (map (fun n => (n, narrow_suffix max)) ids, reds).
Proof. exact probe_roundtrip. Qed.
Print Assumptions C04_probe_roundtrip.
Example C04_case :
  Forall (probe_fits (Some 2)) [x_id; x_prefix] /\ Forall (fun n => n <> []) [x_id; x_prefix] /\
  Forall name_fits [x_keyloc; []] /\ 2 < 2 ^ 64 /\
  probe_decode (probe_encode [x_id; x_prefix] (Some 2) [x_keyloc; []]) = Ok ([(x_id, 2%Z); (x_prefix, 2%Z)], [x_keyloc; []]).
Proof. unfold probe_fits. meets. Qed.
(** The suffix length is exact up to INT_MAX, and not above. *)
Theorem C04_suffix_exact : forall k, k < 2 ^ 31 -> narrow_suffix (Some k) = Z.of_N k.
Proof. exact to_i32_small. Qed.
Print Assumptions C04_suffix_exact.
(** Above, the low 32 bits are read as a signed number. *)
Theorem C04_suffix_held : forall k, held 32 (Z.of_N k) (narrow_suffix (Some k)).
Proof. exact NarrowFacts.suffix_held. Qed.
Print Assumptions C04_suffix_held.
Example C04_suffix_narrowed : narrow_suffix (Some (2 ^ 31)) = (- 2 ^ 31)%Z /\ narrow_suffix None = 0%Z.
Proof. meets. Qed.
(** A reply that offers an empty name cannot be read at all. *)
Theorem C04_empty_name_unreadable : forall ids1 ids2 max reds, Forall (probe_fits max) ids1 -> Forall (fun n => n <> []) ids1 ->
  Forall (probe_fits max) ids2 -> Forall name_fits reds -> (forall k, max = Some k -> k < 2 ^ 64) ->
  probe_decode (probe_encode (ids1 ++ [] :: ids2) max reds) = Exn.
Proof. exact probe_empty_name. Qed.
Print Assumptions C04_empty_name_unreadable.

(** ** C05: NEW and REVOKE parameters *)
Theorem C05_params_roundtrip : forall E rt ecdh c, codec_laws E -> rt = RT_NEW \/ rt = RT_REVOKE ->
  fits ecdh -> wf_cert c -> cert_ok c = true -> fits (enc_tlv (cert_tlv E c)) ->
  req_decode E rt (req_encode E rt ecdh c) = Ok (ecdh, c).
Proof. exact req_roundtrip. Qed.
Print Assumptions C05_params_roundtrip.
Example C05_case : codec_laws toy /\ fits (o_ecdh_pub toy (bs "k")) /\ wf_cert x_cred /\ cert_ok x_cred = true /\
  fits (enc_tlv (cert_tlv toy x_cred)) /\
  req_decode toy RT_REVOKE (req_encode toy RT_REVOKE (bs "key") x_cred) = Ok (bs "key", x_cred).
Proof. meets. Qed.
(** Decoding succeeds exactly on the blocks [request_params] describes (Spec_Codec.v). *)
Theorem C05_params_strict : forall E rt cty b ecdh c, cert_type rt cty ->
  (req_decode E rt b = Ok (ecdh, c) <-> request_params E cty b ecdh c).
Proof. exact req_decode_iff. Qed.
Print Assumptions C05_params_strict.
Example C05_strict_case : cert_type RT_NEW T_CertRequest /\
  req_decode toy RT_NEW (enc_tlvs [Tlv T_CertRequest (enc_tlv (cert_tlv toy x_cred)); Tlv 1000 []; Tlv T_EcdhPub (bs "k")])
  = Ok (bs "k", x_cred).
Proof. split; [left; split; reflexivity|meets]. Qed.
Theorem C05_renew_never_decodes : forall E b, fails (req_decode E RT_RENEW b).
Proof. exact req_decode_renew. Qed.
Print Assumptions C05_renew_never_decodes.

(** ** C06: NEW and REVOKE replies *)
Theorem C06_reply_roundtrip : forall ecdh salt id chals salt0 id0,
  fits ecdh -> length salt = 32%nat -> length id = 8%nat -> Forall fits chals ->
  length salt0 = 32%nat -> length id0 = 8%nat ->
  reply_decode salt0 id0 (reply_encode ecdh salt id chals) = (Ok tt, Reply ecdh salt id chals).
Proof. exact reply_roundtrip. Qed.
Print Assumptions C06_reply_roundtrip.
Example C06_case :
  fits (bs "ecdh") /\ length (repeat x41 32) = 32%nat /\ length (bs "8 bytes.") = 8%nat /\
  Forall fits [CH_PIN; CH_EMAIL; []] /\
  reply_decode (repeat x00 32) (repeat x00 8) (reply_encode (bs "ecdh") (repeat x41 32) (bs "8 bytes.") [CH_PIN; CH_EMAIL; []])
  = (Ok tt, Reply (bs "ecdh") (repeat x41 32) (bs "8 bytes.") [CH_PIN; CH_EMAIL; []]).
Proof. meets. Qed.

(** ** C07: decoding a reply is memory safe -- false *)
(** A reply with a 33-byte salt is written beyond the 32-byte buffer. *)
Theorem C07_reply_memory_safe_refuted : exists b, fst (reply_decode (repeat x00 32) (repeat x00 8) b) = UB.
Proof. exact reply_overflow. Qed.
Print Assumptions C07_reply_memory_safe_refuted.
(** Exactly the replies with a Salt or RequestId element longer than its buffer, reached by the loop, are
    unsafe. *)
Theorem C07_reply_safe_iff_partial : forall salt0 id0 b,
  fst (reply_decode salt0 id0 b) = UB <->
  exists before t rest, parse b = Some (before ++ t :: rest) /\ only_known_critical known_new_reply before /\
     Forall (fun t => ~ too_long salt0 id0 t) before /\ too_long salt0 id0 t.
Proof. exact reply_decode_ub_iff. Qed.
Print Assumptions C07_reply_safe_iff_partial.
Example C07_case : parse (enc_tlvs [Tlv T_EcdhPub (bs "k"); Tlv T_RequestId (repeat x41 9)]) =
    Some ([Tlv T_EcdhPub (bs "k")] ++ Tlv T_RequestId (repeat x41 9) :: []) /\
  too_long (repeat x00 32) (repeat x00 8) (Tlv T_RequestId (repeat x41 9)).
Proof. split; [meets|]. right. split; [reflexivity|]. vm_compute. repeat constructor. Qed.

(** ** C08: unknown critical elements are rejected, unknown non-critical ones ignored *)
Theorem C08_info : forall E a t b, Forall wf_tlv (a ++ t :: b) ->
  (critical (t_type t) -> ~ In (t_type t) known_info -> fails (info_decode E (enc_tlvs (a ++ t :: b)))) /\
  (~ critical (t_type t) -> info_decode E (enc_tlvs (a ++ t :: b)) = info_decode E (enc_tlvs (a ++ b))).
Proof. exact info_unknown. Qed.
Print Assumptions C08_info.
Theorem C08_probe_reply : forall a t b, Forall wf_tlv (a ++ t :: b) ->
  (critical (t_type t) -> ~ In (t_type t) known_probe_reply -> fails (probe_decode (enc_tlvs (a ++ t :: b)))) /\
  (~ critical (t_type t) -> probe_decode (enc_tlvs (a ++ t :: b)) = probe_decode (enc_tlvs (a ++ b))).
Proof. exact probe_unknown. Qed.
Print Assumptions C08_probe_reply.
Theorem C08_request : forall E rt cty a t b, cert_type rt cty -> Forall wf_tlv (a ++ t :: b) ->
  (critical (t_type t) -> ~ In (t_type t) [T_EcdhPub; cty] -> fails (req_decode E rt (enc_tlvs (a ++ t :: b)))) /\
  (~ critical (t_type t) -> req_decode E rt (enc_tlvs (a ++ t :: b)) = req_decode E rt (enc_tlvs (a ++ b))).
Proof. exact req_unknown. Qed.
Print Assumptions C08_request.
Theorem C08_reply : forall salt0 id0 a t b, Forall wf_tlv (a ++ t :: b) ->
  (critical (t_type t) -> ~ In (t_type t) known_new_reply -> fails (fst (reply_decode salt0 id0 (enc_tlvs (a ++ t :: b))))) /\
  (~ critical (t_type t) -> reply_decode salt0 id0 (enc_tlvs (a ++ t :: b)) = reply_decode salt0 id0 (enc_tlvs (a ++ b))).
Proof. exact reply_unknown. Qed.
Print Assumptions C08_reply.
(** For PROBE parameters and CHALLENGE replies a non-critical element is ignored except directly between a
    ParameterKey and its ParameterValue. *)
Theorem C08_probe_params_partial : forall a t b, Forall wf_tlv (a ++ t :: b) ->
  (critical (t_type t) -> ~ In (t_type t) known_probe_params -> fails (probe_params_decode (enc_tlvs (a ++ t :: b)))) /\
  (~ critical (t_type t) ->
   (forall k v a' b', a = a' ++ [k] -> b = v :: b' -> t_type k = T_ParameterKey -> t_type v <> T_ParameterValue) ->
   probe_params_decode (enc_tlvs (a ++ t :: b)) = probe_params_decode (enc_tlvs (a ++ b))).
Proof. exact probe_params_unknown. Qed.
Print Assumptions C08_probe_params_partial.
(** [content] and [content'] decrypt to the elements with and without [t]; the resulting requester states
    differ at most in the decryption IV. *)
Theorem C08_challenge_reply_partial : forall E now s a t b content d, Forall wf_tlv (a ++ t :: b) ->
  decode_aes E (rs_key s) content (rs_id s) (rs_div s) (rs_eiv s) = (Ok (enc_tlvs (a ++ t :: b)), d) ->
  (critical (t_type t) -> ~ In (t_type t) known_challenge_reply -> fails (fst (chal_decode E now content s))) /\
  (~ critical (t_type t) -> (forall k a', a = a' ++ [k] -> t_type k <> T_ParameterKey) ->
   forall content' d', decode_aes E (rs_key s) content' (rs_id s) (rs_div s) (rs_eiv s) = (Ok (enc_tlvs (a ++ b)), d') ->
   fst (chal_decode E now content s) = fst (chal_decode E now content' s) /\
   upd_div d' (snd (chal_decode E now content s)) = snd (chal_decode E now content' s)).
Proof. exact chal_unknown. Qed.
Print Assumptions C08_challenge_reply_partial.
Example C08_case : Forall wf_tlv ([Tlv T_EcdhPub (bs "k")] ++ Tlv 1000 (bs "?") :: [Tlv T_Challenge CH_PIN]) /\
  ~ critical 1000 /\ critical 1001 /\ ~ In 1001 known_new_reply.
Proof.
  split; [cbn [app]; meets|]. split; [intros H; apply is_critical_iff in H; vm_compute in H; discriminate|].
  split; [apply is_critical_iff; vm_compute; reflexivity|].
  intros H; cbn in H; repeat (destruct H as [H|H]; [vm_compute in H; discriminate|]); exact H.
Qed.
Example C08_challenge_case :
  let s := x_sel in
  let els := [Tlv T_Status (nni_enc 1); Tlv 1000 (bs "?"); Tlv T_ChallengeStatus (bs "need-code")] in
  let content := sealed toy (rs_key s) (bs "abcdefgh0001") (rs_id s) (enc_tlvs els) in
  fst (decode_aes toy (rs_key s) content (rs_id s) (rs_div s) (rs_eiv s)) = Ok (enc_tlvs els) /\ Forall wf_tlv els.
Proof. meets. Qed.
(** Between key and value a non-critical element does change the result. *)
Theorem C08_noncritical_ignored_refuted :
  (exists a t b m, Forall wf_tlv (a ++ t :: b) /\ ~ critical (t_type t) /\
     probe_params_decode (enc_tlvs (a ++ b)) = Ok m /\ probe_params_decode (enc_tlvs (a ++ t :: b)) = Exn) /\
  (exists s content content' a t b d d', Forall wf_tlv (a ++ t :: b) /\ ~ critical (t_type t) /\
     decode_aes toy (rs_key s) content (rs_id s) (rs_div s) (rs_eiv s) = (Ok (enc_tlvs (a ++ t :: b)), d) /\
     decode_aes toy (rs_key s) content' (rs_id s) (rs_div s) (rs_eiv s) = (Ok (enc_tlvs (a ++ b)), d') /\
     fst (chal_decode toy x_now content' s) = Ok tt /\ fst (chal_decode toy x_now content s) = Exn).
Proof. exact noncritical_between. Qed.
Print Assumptions C08_noncritical_ignored_refuted.

(** ** C55: CHALLENGE replies survive the wire *)
Theorem C55_challenge_reply_roundtrip : forall E now r issued fwd rnd8 nonce content r' s, aes_laws E ->
  (forall c, rq_cs r = Some c -> cs_ok now nonce c) -> rq_status r <= 6 ->
  name_fits issued -> name_fits fwd -> blen (name_wire issued) < 2 ^ 32 -> blen (name_wire fwd) < 2 ^ 32 ->
  in_sync r rnd8 s -> chal_encode E r issued fwd rnd8 = (Ok content, r') ->
  exists s', chal_decode E now content s = (Ok tt, s') /\ told now r issued fwd nonce s s' /\
    same_session s s' /\ rs_div s' = rq_eiv r'.
Proof. exact chal_told. Qed.
Print Assumptions C55_challenge_reply_roundtrip.
Example C55_case :
  let c := CState (bs "need-proof") x_now 1 60 [(bs "nonce", to_hex (repeat x41 16))] in
  let r := Request x_prefix (rs_id x_sel) RT_NEW ST_CHALLENGE x_cred (rs_key x_sel) [] [] CH_POSSESSION (Some c) in
  cs_ok x_now (repeat x41 16) c /\ rq_status r <= 6 /\ name_fits x_keyname /\ blen (name_wire x_keyname) < 2 ^ 32 /\
  rs_key x_sel = rq_key r /\ rs_id x_sel = rq_id r /\ rq_eiv r = [] /\ rs_div x_sel = [] /\ rs_eiv x_sel = [] /\
  (match chal_encode toy r x_keyname [] (bs "random..") with (Ok _, _) => true | _ => false end) = true.
Proof. unfold cs_ok. meets. Qed.
