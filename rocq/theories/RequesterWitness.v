(** Concrete cases for the statements about the requester, and counterexamples. *)
From Verif Require Export RequesterFacts TraceWitness.
Local Open Scope N_scope.

(** A packet the example CA signs. *)
Definition y_signed (content : bytes) : data :=
  let n := x_prefix ++ [gc (bs "CA"); gc (bs "y")] in
  Data n content 4000 None (o_sign toy x_ca_sk (MData n content 4000 None)).

(** ** Profiles *)
Definition y_profile : data := Eval vm_compute in match profile_data toy x_cfg None 5 with Ok d => d | _ => Data [] [] 0 None [] end.
Lemma y_profile_eq : profile_data toy x_cfg None 5 = Ok y_profile.
Proof. vm_compute. reflexivity. Qed.
Lemma y_profile_ok : exists p, on_profile toy y_profile = Ok p /\ on_profile_redirected toy y_profile (full_name toy x_ca_cert) = Ok p.
Proof. eexists. split; vm_compute; reflexivity. Qed.
Lemma y_no_cert : exists d, on_profile toy d = UB /\ forall full, on_profile_redirected toy d full = UB.
Proof. exists (y_signed []). split; [|intros full]; vm_compute; reflexivity. Qed.
Lemma y_own : public_key (cf_cert x_cfg) = o_pub toy (cf_sk x_cfg) /\ name_fits (p_prefix (cfp x_cfg)) /\ fits (p_info (cfp x_cfg)) /\
  Forall fits (p_probe_keys (cfp x_cfg)) /\ (forall k, c_keyloc (cf_cert x_cfg) = Some k -> fits (bs "Issued by " ++ o_to_uri toy k)) /\
  (- 2 ^ 63 <= p_maxvalid (cfp x_cfg) < 2 ^ 63)%Z /\ wf_cert (cf_cert x_cfg) /\ cert_ok (cf_cert x_cfg) = true /\ fits (enc_tlv (cert_tlv toy (cf_cert x_cfg))).
Proof.
  split; [meets|]. split; [meets|]. split; [meets|]. split; [repeat constructor; meets|]. split; [intros k H; injection H as <-; meets|]. split; [split; meets|]. meets.
Qed.

(** ** Replies *)
Definition y_error : data := Eval vm_compute in y_signed (err_encode INVALID_PARAMETER (bs "no")).
Lemma y_error_says : error_content (d_content y_error) INVALID_PARAMETER.
Proof.
  apply decoded_error; [vm_compute; reflexivity|discriminate].
Qed.
Lemma y_bad : p_cert (rs_profile x_req1) = Some x_ca_cert /\ bad_reply toy x_ca_cert (Data [] [] 0 None []) /\ bad_reply toy x_ca_cert y_error.
Proof.
  split; [reflexivity|]. split; [left; vm_compute; discriminate|]. right. exists INVALID_PARAMETER. split; [discriminate|exact y_error_says].
Qed.
Lemma y_good : (exists chals s', on_new_response toy x_req1 (x_rin x_now 2) (the_put (snd x_ca1)) = (Ok chals, s')) /\
  exists s', on_challenge_response toy (snd x_chal1) (x_rin x_now 4) (the_put (snd x_ca2)) = (Ok tt, s').
Proof. split; [do 2 eexists|eexists]; vm_compute; reflexivity. Qed.
(** A profile without certificate. *)
Lemma y_null : exists s ri d, on_new_response toy s ri d = (UB, s) /\ on_challenge_response toy s ri d = (UB, s) /\ on_probe_response toy d (rs_profile s) = UB.
Proof.
  exists (request_init (Profile x_prefix [] [] [] 0 None [] None) RT_NEW (bs "e") (repeat x00 8)), (x_rin x_now 1), y_error. repeat split.
Qed.

(** ** What a rejected reply changes *)
(** A signed NEW reply without salt, and an authentic CHALLENGE reply with two Status elements. *)
Definition y_id : bytes := bs "otherreq".
Lemma y_torn_new : exists s ri d s', on_new_response toy s ri d = (Exn, s') /\ rs_id s' <> rs_id s.
Proof.
  exists x_req2, (x_rin x_now 2), (y_signed (enc_tlvs [Tlv T_EcdhPub (bs "p"); Tlv T_RequestId y_id])). eexists. split; [vm_compute; reflexivity|vm_compute; discriminate].
Qed.
Definition y_two : bytes := enc_tlvs [Tlv T_Status (nni_enc ST_SUCCESS); Tlv T_ForwardingHint (enc_tlv (Tlv 7 []))  ; Tlv T_Status (nni_enc ST_SUCCESS)].
Definition y_torn : data := Eval vm_compute in
  y_signed (match fst (encode_aes toy (rs_key (snd x_chal1)) y_two (rs_id (snd x_chal1)) [] (bs "serverIV")) with Ok b => b | _ => [] end).
Lemma y_torn_chal : exists s ri d s', on_challenge_response toy s ri d = (Exn, s') /\ rs_status s <> ST_SUCCESS /\ rs_status s' = ST_SUCCESS.
Proof.
  exists (snd x_chal1), (x_rin x_now 4), y_torn. eexists. split; [vm_compute; reflexivity|]. split; [vm_compute; discriminate|reflexivity].
Qed.

(** ** Interests *)
Lemma y_key : key_under (p_prefix (rs_profile x_req0)) x_keyname.
Proof. split; [exists [gc (bs "alice"); gc (bs "KEY"); gc (bs "k1")]; reflexivity|]. exists (x_prefix ++ [gc (bs "alice")]), (gc (bs "k1")). reflexivity. Qed.
Lemma y_new : fits (o_ecdh_pub toy (rs_ecdh x_req0)) /\ wf_name x_keyname /\ wf_name (ri_kloc (x_rin x_now 1)) /\ mk_validity x_now (x_now + sec 3600) = (x_now, x_now + sec 3600)%Z /\
  (0 <= x_now < 2 ^ 63)%Z /\ (0 <= x_now + sec 3600 < 2 ^ 63)%Z /\ fits (enc_tlv (cert_tlv toy (cert_request toy x_sk (x_rin x_now 1) x_keyname x_now (x_now + sec 3600)))).
Proof. meets. Qed.
Lemma y_chal : step_payload (rs_ctype x_req3) (rs_status x_req3) (rs_cstatus x_req3) [(bs "code", bs "000000")]
    [Tlv T_SelectedChallenge (bs "pin"); Tlv T_ParameterKey (bs "code"); Tlv T_ParameterValue (bs "000000")] /\
  rs_keypair x_req3 = Some (x_keyname, x_sk) /\ iv_sound (rs_eiv x_req3) /\ rs_eiv x_req3 <> [] /\
  has_room (rs_eiv x_req3) (enc_tlvs [Tlv T_SelectedChallenge (bs "pin"); Tlv T_ParameterKey (bs "code"); Tlv T_ParameterValue (bs "000000")]).
Proof.
  split; [apply (sp_pin_code (bs "need-code")); left; reflexivity|]. split; [reflexivity|]. split; [right; vm_compute; reflexivity|]. split; [discriminate|]. vm_compute. reflexivity.
Qed.

(** ** Discovery *)
Definition y_prefix : name := [gc (bs "ndn"); gc (bs "CA")].
Definition y_cfg : ca_cfg :=
  CaCfg (Config (Profile y_prefix [] [] [] 864000 None [CH_PIN] (Some x_ca_cert)) [] []) (ChalCfg [] (Ok [])) x_ca_cert x_ca_sk x_keyloc.
(** For a CA whose prefix ends in CA the discovery Interest is not one of the CA's. *)
Lemma y_lost : ca_at toy y_cfg mem_ops (ca_init mem_ops (bs "key")) /\ exists x, gen_discovery (p_prefix (cfp y_cfg)) = Ok x /\
  forall i, on_interest toy y_cfg mem_ops (ca_init mem_ops (bs "key")) i x = ([], Ok tt).
Proof.
  split. { constructor; [meets|meets|constructor|]. exists (bs "key"), [], []. reflexivity. }
  eexists. split; [reflexivity|]. intros i. reflexivity.
Qed.
Lemma y_found : reachable toy x_cfg (db_ops toy) x_ca0 /\ exists x es, gen_discovery (p_prefix (cfp x_cfg)) = Ok x /\
  on_interest toy x_cfg (db_ops toy) x_ca0 (x_inputs x_now 1) x = (es, Ok tt).
Proof. split; [exact (at_reach _ _ _ _ x_at0)|]. do 2 eexists. split; [reflexivity|vm_compute; reflexivity]. Qed.
