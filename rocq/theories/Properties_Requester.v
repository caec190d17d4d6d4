(** C53, C54, C58, C65-C67: the requester's side. *)
From Verif Require Import RequesterFacts RequesterWitness.
Local Open Scope N_scope.

(** ** C53: self-consistent profiles *)
(** A profile is returned only if it carries a certificate under whose key the packet verifies. *)
Theorem C53_accepted : forall E d p, on_profile E d = Ok p ->
  info_decode E (d_content d) = Ok p /\ exists c, p_cert p = Some c /\ profile_carries E (d_content d) c /\ data_verifies E d c.
Proof. exact profile_accepted. Qed.
Print Assumptions C53_accepted.
(** After a redirection its full name must in addition be the announced one. *)
Theorem C53_redirected : forall E d full p, codec_laws E -> on_profile_redirected E d full = Ok p ->
  on_profile E d = Ok p /\ exists c, p_cert p = Some c /\ profile_carries E (d_content d) c /\ data_verifies E d c /\ full_name E c = full.
Proof. exact profile_redirected. Qed.
Print Assumptions C53_redirected.
(** Anything else throws: missing are packets without CaCertificate element, which dereference a null pointer. *)
Theorem C53_outcomes_partial : forall E d, on_profile E d <> Hang /\
  (on_profile E d = UB -> exists els, parse (d_content d) = Some els /\ forall t, In t els -> t_type t <> T_CaCertificate).
Proof. exact profile_outcomes. Qed.
Print Assumptions C53_outcomes_partial.
Theorem C53_no_cert_refuted : exists d, on_profile toy d = UB /\ forall full, on_profile_redirected toy d full = UB.
Proof. exact y_no_cert. Qed.
Print Assumptions C53_no_cert_refuted.
(** The profile a CA publishes is accepted, also when the CA is reached by redirection. *)
Theorem C53_own : forall E g v d, codec_laws E -> sig_laws E -> profile_data E g None v = Ok d -> public_key (cf_cert g) = o_pub E (cf_sk g) ->
  name_fits (p_prefix (cfp g)) -> fits (p_info (cfp g)) -> Forall fits (p_probe_keys (cfp g)) ->
  (forall k, c_keyloc (cf_cert g) = Some k -> fits (bs "Issued by " ++ o_to_uri E k)) ->
  (- 2 ^ 63 <= p_maxvalid (cfp g) < 2 ^ 63)%Z -> wf_cert (cf_cert g) -> cert_ok (cf_cert g) = true -> fits (enc_tlv (cert_tlv E (cf_cert g))) ->
  exists p, on_profile E d = Ok p /\ on_profile_redirected E d (full_name E (cf_cert g)) = Ok p /\ p_prefix p = p_prefix (cfp g) /\ p_cert p = Some (cf_cert g) /\
    p_maxvalid p = p_maxvalid (cfp g) /\ p_probe_keys p = p_probe_keys (cfp g).
Proof. exact own_profile. Qed.
Print Assumptions C53_own.
Example C53_case : (exists p, on_profile toy y_profile = Ok p /\ on_profile_redirected toy y_profile (full_name toy x_ca_cert) = Ok p) /\
  profile_data toy x_cfg None 5 = Ok y_profile.
Proof. exact (conj y_profile_ok y_profile_eq). Qed.
Example C53_own_case : public_key (cf_cert x_cfg) = o_pub toy (cf_sk x_cfg) /\ name_fits (p_prefix (cfp x_cfg)) /\ fits (p_info (cfp x_cfg)) /\
  Forall fits (p_probe_keys (cfp x_cfg)) /\ (forall k, c_keyloc (cf_cert x_cfg) = Some k -> fits (bs "Issued by " ++ o_to_uri toy k)) /\
  (- 2 ^ 63 <= p_maxvalid (cfp x_cfg) < 2 ^ 63)%Z /\ wf_cert (cf_cert x_cfg) /\ cert_ok (cf_cert x_cfg) = true /\ fits (enc_tlv (cert_tlv toy (cf_cert x_cfg))).
Proof. exact y_own. Qed.

(** ** C54: replies that must not be acted on *)
(** A reply that does not verify, or reports an error, makes the call throw and changes nothing. *)
Theorem C54_rejected : forall E s ri d c, p_cert (rs_profile s) = Some c -> bad_reply E c d ->
  on_new_response E s ri d = (Exn, s) /\ on_challenge_response E s ri d = (Exn, s) /\ on_probe_response E d (rs_profile s) = Exn.
Proof. exact bad_rejected. Qed.
Print Assumptions C54_rejected.
(** A reply the requester acts on verifies and reports no error. *)
Theorem C54_accepted : forall E s ri d c, p_cert (rs_profile s) = Some c ->
  (exists chals s', on_new_response E s ri d = (Ok chals, s')) \/ (exists s', on_challenge_response E s ri d = (Ok tt, s')) \/ (exists r, on_probe_response E d (rs_profile s) = Ok r) ->
  data_verifies E d c /\ forall code, error_content (d_content d) code -> code = NO_ERROR.
Proof. exact accepted_good. Qed.
Print Assumptions C54_accepted.
(** Both need a profile with a certificate; without one, every reply dereferences a null pointer. *)
Theorem C54_no_cert_refuted : exists s ri d, on_new_response toy s ri d = (UB, s) /\ on_challenge_response toy s ri d = (UB, s) /\ on_probe_response toy d (rs_profile s) = UB.
Proof. exact y_null. Qed.
Print Assumptions C54_no_cert_refuted.
Example C54_case : p_cert (rs_profile x_req1) = Some x_ca_cert /\ bad_reply toy x_ca_cert (Data [] [] 0 None []) /\ bad_reply toy x_ca_cert y_error.
Proof. exact y_bad. Qed.
Example C54_accepted_case : (exists chals s', on_new_response toy x_req1 (x_rin x_now 2) (the_put (snd x_ca1)) = (Ok chals, s')) /\
  exists s', on_challenge_response toy (snd x_chal1) (x_rin x_now 4) (the_put (snd x_ca2)) = (Ok tt, s').
Proof. exact y_good. Qed.

(** ** C66: a rejected reply leaves the request unchanged *)
(** False for replies signed by the CA. *)
Theorem C66_new_refuted : exists s ri d s', on_new_response toy s ri d = (Exn, s') /\ rs_id s' <> rs_id s.
Proof. exact y_torn_new. Qed.
Print Assumptions C66_new_refuted.
Theorem C66_challenge_refuted : exists s ri d s', on_challenge_response toy s ri d = (Exn, s') /\ rs_status s <> ST_SUCCESS /\ rs_status s' = ST_SUCCESS.
Proof. exact y_torn_chal. Qed.
Print Assumptions C66_challenge_refuted.
(** A rejected NEW or REVOKE reply changes at most the request ID; an accepted one the request ID and the key. *)
Theorem C66_new_partial : forall E s ri d o s', on_new_response E s ri d = (o, s') ->
  (fails o -> same_but_id s s') /\ (forall chals, o = Ok chals -> s' = upd_key (rs_key s') (upd_id (rs_id s') s)).
Proof. exact new_kept. Qed.
Print Assumptions C66_new_partial.
(** No CHALLENGE reply, accepted or not, changes the profile, request ID, keys, selected challenge or outgoing IV. *)
Theorem C66_challenge_partial : forall E s ri d o s', on_challenge_response E s ri d = (o, s') -> same_session s s'.
Proof. exact challenge_kept. Qed.
Print Assumptions C66_challenge_partial.
Example C66_case : (exists chals s', on_new_response toy x_req1 (x_rin x_now 2) (the_put (snd x_ca1)) = (Ok chals, s')) /\
  exists s', on_challenge_response toy (snd x_chal1) (x_rin x_now 4) (the_put (snd x_ca2)) = (Ok tt, s').
Proof. exact y_good. Qed.

(** ** C58: what the requester sends *)
(** A NEW Interest for a key under the CA prefix: addressed, signed and carrying what it should. *)
Theorem C58_new : forall E s ri kn sk nb na nb' na', codec_laws E -> sig_laws E -> key_under (p_prefix (rs_profile s)) kn ->
  fits (o_ecdh_pub E (rs_ecdh s)) -> wf_name kn -> wf_name (ri_kloc ri) -> mk_validity nb na = (nb', na') -> (0 <= nb' < 2 ^ 63)%Z -> (0 <= na' < 2 ^ 63)%Z ->
  fits (enc_tlv (cert_tlv E (cert_request E sk ri kn nb na))) ->
  exists x c s' identity kid, gen_new E s ri kn sk nb na = (Ok (Some x), s') /\ sent_to (p_prefix (rs_profile s)) [gc (bs "NEW")] x /\ signed_by E x (o_pub E sk) /\
    carries E RT_NEW x (o_ecdh_pub E (rs_ecdh s)) c /\
    c_name c = kn ++ [gc (bs "cert-request"); version_comp (ri_version ri)] /\ public_key c = o_pub E sk /\ cert_signed_by E c (o_pub E sk) /\ c_validity c = Some (nb', na') /\
    kn = identity ++ [gc (bs "KEY"); kid] /\ s' = upd_keypair (Some (kn, sk)) (upd_identity identity s).
Proof. exact new_interest. Qed.
Print Assumptions C58_new.
(** For any other key name there is none: nullptr, or an exception if it is under the prefix but no key name. *)
Theorem C58_new_refused : forall E s ri kn sk nb na, ~ key_under (p_prefix (rs_profile s)) kn ->
  gen_new E s ri kn sk nb na = (Ok None, s) \/ (begins (p_prefix (rs_profile s)) kn /\ gen_new E s ri kn sk nb na = (Exn, s)).
Proof. exact new_refused. Qed.
Print Assumptions C58_new_refused.
Theorem C58_revoke : forall E s c, codec_laws E ->
  (begins (p_prefix (rs_profile s)) (c_name c) -> exists x, gen_revoke E s c = Some x /\ sent_to (p_prefix (rs_profile s)) [gc (bs "REVOKE")] x /\ i_sig x = None /\
     (fits (o_ecdh_pub E (rs_ecdh s)) -> wf_cert c -> cert_ok c = true -> fits (enc_tlv (cert_tlv E c)) -> carries E RT_REVOKE x (o_ecdh_pub E (rs_ecdh s)) c)) /\
  (~ begins (p_prefix (rs_profile s)) (c_name c) -> gen_revoke E s c = None).
Proof. exact revoke_interest. Qed.
Print Assumptions C58_revoke.
(** A CHALLENGE Interest for parameters that match the step. *)
Theorem C58_challenge : forall E s ri params els kn sk, aes_laws E -> sig_laws E -> step_payload (rs_ctype s) (rs_status s) (rs_cstatus s) params els ->
  rs_keypair s = Some (kn, sk) -> iv_sound (rs_eiv s) -> Forall wf_tlv els -> small_payload (enc_tlvs els) -> has_room (rs_eiv s) (enc_tlvs els) ->
  exists x s', gen_challenge E s ri params = (Ok x, s') /\ sent_to (p_prefix (rs_profile s)) [gc (bs "CHALLENGE"); gc (rs_id s)] x /\ signed_by E x (o_pub E sk) /\
    opens E (rs_key s) (rs_id s) x els /\ s' = upd_eiv (rs_eiv s') s /\ iv12 (rs_eiv s') /\
    ctr_part (rs_eiv s') = used (rs_eiv s) + blocks16 (enc_tlvs els) /\ rand_part (rs_eiv s') = rand_part (initial_iv (rs_eiv s) (be_enc 8 (ri_iv ri))).
Proof. exact challenge_interest. Qed.
Print Assumptions C58_challenge.
(** There is none otherwise. *)
Theorem C58_challenge_only : forall E s ri params o s', iv_sound (rs_eiv s) -> gen_challenge E s ri params = (o, s') ->
  s' = upd_eiv (rs_eiv s') s /\ ((exists x els, o = Ok x /\ step_payload (rs_ctype s) (rs_status s) (rs_cstatus s) params els /\ rs_keypair s <> None) \/ o = Exn).
Proof. exact challenge_only. Qed.
Print Assumptions C58_challenge_only.
(** A discovery Interest adds a CA component, *)
Theorem C58_discovery : forall n last, t_val last <> bs "CA" -> gen_discovery (n ++ [last]) = Ok (Interest ((n ++ [last]) ++ [gc (bs "CA"); gc (bs "INFO"); Tlv 32 (bs "metadata")]) None None).
Proof. exact discovery_name. Qed.
Print Assumptions C58_discovery.
(** unless there is one at the end. *)
Theorem C58_discovery_ca : forall n last, t_val last = bs "CA" -> gen_discovery (n ++ [last]) = Ok (Interest ((n ++ [last]) ++ [gc (bs "INFO"); Tlv 32 (bs "metadata")]) None None).
Proof. exact discovery_name_ca. Qed.
Print Assumptions C58_discovery_ca.
Example C58_new_case : key_under (p_prefix (rs_profile x_req0)) x_keyname.
Proof. exact y_key. Qed.
Example C58_new_case2 : fits (o_ecdh_pub toy (rs_ecdh x_req0)) /\ wf_name x_keyname /\ wf_name (ri_kloc (x_rin x_now 1)) /\ mk_validity x_now (x_now + sec 3600) = (x_now, x_now + sec 3600)%Z /\
  (0 <= x_now < 2 ^ 63)%Z /\ (0 <= x_now + sec 3600 < 2 ^ 63)%Z /\ fits (enc_tlv (cert_tlv toy (cert_request toy x_sk (x_rin x_now 1) x_keyname x_now (x_now + sec 3600)))).
Proof. exact y_new. Qed.
Example C58_challenge_case : step_payload (rs_ctype x_req3) (rs_status x_req3) (rs_cstatus x_req3) [(bs "code", bs "000000")]
    [Tlv T_SelectedChallenge (bs "pin"); Tlv T_ParameterKey (bs "code"); Tlv T_ParameterValue (bs "000000")] /\
  rs_keypair x_req3 = Some (x_keyname, x_sk) /\ iv_sound (rs_eiv x_req3) /\ rs_eiv x_req3 <> [] /\
  has_room (rs_eiv x_req3) (enc_tlvs [Tlv T_SelectedChallenge (bs "pin"); Tlv T_ParameterKey (bs "code"); Tlv T_ParameterValue (bs "000000")]).
Proof. exact y_chal. Qed.

(** ** C67: the parameters a step asks for are the ones it accepts *)
Theorem C67_asks : forall s ty ks, step_asks ty (rs_status s) (rs_cstatus s) ks <-> exists m, select_challenge s ty = (Ok m, upd_ctype ty s) /\ map fst m = ks.
Proof. exact asks_iff. Qed.
Print Assumptions C67_asks.
(** Any values for them are accepted; a credential must be a TLV element. *)
Theorem C67_accepted : forall ty st cst ks m, step_asks ty st cst ks -> map fst m = ks ->
  (forall w, In (bs "issued-cert", w) m -> exists t rest, dec_elem w = Some (t, rest)) -> exists els, step_payload ty st cst m els.
Proof. exact asked_accepted. Qed.
Print Assumptions C67_accepted.
Example C67_case : step_asks (bs "pin") (rs_status x_req3) (rs_cstatus x_req3) [bs "code"].
Proof. apply sa_pin_code. left. reflexivity. Qed.

(** ** C65: discovering a CA's profile *)
(** Missing: a CA whose prefix ends in a component CA. *)
Theorem C65_discovered_partial : forall E g S (ops : store_ops S) s i x es n last, reachable E g ops s -> p_prefix (cfp g) = n ++ [last] -> t_val last <> bs "CA" ->
  gen_discovery (p_prefix (cfp g)) = Ok x -> on_interest E g ops s i x = (es, Ok tt) ->
  in_mversion i < 2 ^ 64 ->
  exists d m v y, puts es = [m] /\ on_get_profile E g (ca_prof s) i = (removelast es, Ok d) /\ data_signed_by E d (cf_sk g) /\ d_name d = profile_name g v /\
    ca_prof (apply_effs ops es s) = Some d /\
    (v < 2 ^ 64 -> name_fits (p_prefix (cfp g) ++ [gc (bs "CA"); gc (bs "INFO"); version_comp v]) -> gen_profile_interest m = Ok y /\ i_name y = d_name d).
Proof. exact discovered. Qed.
Print Assumptions C65_discovered_partial.
(** A discovery reply is followed exactly if it is RDR metadata for a versioned name: then segment 0 of that name is asked for. *)
Theorem C65_metadata : forall d y, gen_profile_interest d = Ok y <-> exists n, metadata_for d n /\ y = Interest (n ++ [Tlv 50 [x00]]) None None.
Proof. exact metadata_iff. Qed.
Print Assumptions C65_metadata.
Example C65_metadata_case : exists d y, gen_profile_interest d = Ok y /\
  d_name d = [gc (bs "a"); Tlv 32 (bs "metadata"); Tlv 54 [x05]; Tlv 50 [x00]] /\ i_name y = [gc (bs "a"); Tlv 54 [x07]; Tlv 50 [x00]].
Proof.
  exists (Data [gc (bs "a"); Tlv 32 (bs "metadata"); Tlv 54 [x05]; Tlv 50 [x00]] (name_wire [gc (bs "a"); Tlv 54 [x07]]) 0 None []).
  eexists. split; [vm_compute; reflexivity|]. split; reflexivity.
Qed.
Theorem C65_ca_prefix_refuted : ca_at toy y_cfg mem_ops (ca_init mem_ops (bs "key")) /\ exists x, gen_discovery (p_prefix (cfp y_cfg)) = Ok x /\
  forall i, on_interest toy y_cfg mem_ops (ca_init mem_ops (bs "key")) i x = ([], Ok tt).
Proof. exact y_lost. Qed.
Print Assumptions C65_ca_prefix_refuted.
Example C65_case : reachable toy x_cfg (db_ops toy) x_ca0 /\ exists x es, gen_discovery (p_prefix (cfp x_cfg)) = Ok x /\
  on_interest toy x_cfg (db_ops toy) x_ca0 (x_inputs x_now 1) x = (es, Ok tt).
Proof. exact y_found. Qed.
