(** The possession challenge: the errors of the CA's module, and the parameters the library fills in.
    Numbers are those of the protocol: status 0 before the challenge, 1 challenge, 2 pending; error 1 bad Interest
    format, 4 invalid parameter. *)
From Verif Require Import FillWitness.
Local Open Scope N_scope.

(** ** C34: possession challenge *)
(** A first message without a credential. *)
Theorem C34_no_credential : forall E cfg i params r h anchors, handle_challenge E cfg i (bs "possession") params r = Some h ->
  cc_anchors cfg = Ok anchors -> params <> [] -> rq_status r = 0 -> (forall w, ~ pair_in params (bs "issued-cert") w) ->
  (exists info, h_out h = Ok (1, info)) /\ rq_status (h_req h) = 4.
Proof. exact possession_no_credential. Qed.
Print Assumptions C34_no_credential.
(** A second message without a proof. *)
Theorem C34_no_proof : forall E cfg i params r h cs anchors, handle_challenge E cfg i (bs "possession") params r = Some h ->
  cc_anchors cfg = Ok anchors -> params <> [] -> rq_status r <> 0 -> rq_cs r = Some cs -> cs_status cs = bs "need-proof" ->
  (forall w, ~ pair_in params (bs "issued-cert") w) -> (forall v, ~ pair_in params (bs "proof") v) ->
  (exists info, h_out h = Ok (1, info)) /\ rq_status (h_req h) = 4.
Proof. exact possession_no_proof. Qed.
Print Assumptions C34_no_proof.
Example C34_format_case : (exists anchors, cc_anchors (cf_chal w_cfg) = Ok anchors) /\ fw_nothing <> [] /\ rq_status p_r1 = 0 /\ (forall w, ~ pair_in fw_nothing (bs "issued-cert") w) /\
  (forall w, ~ pair_in fw_nothing (bs "proof") w) /\ rq_status p_r2 <> 0 /\ rq_cs p_r2 = Some p_cs2 /\ cs_status p_cs2 = bs "need-proof".
Proof.
  split; [eexists; reflexivity|]. split; [discriminate|]. split; [reflexivity|]. split; [intros w; exact (fw_none _ w (or_introl eq_refl))|].
  split; [intros w; exact (fw_none _ w (or_intror eq_refl))|]. split; [discriminate|]. split; reflexivity.
Qed.
(** A credential no configured anchor vouches for. *)
Theorem C34_untrusted : forall E cfg i ty w b c r h anchors loc,
  handle_challenge E cfg i (bs "possession") [Tlv 161 ty; Tlv 133 (bs "issued-cert"); Tlv 135 w] r = Some h ->
  cc_anchors cfg = Ok anchors -> rq_status r = 0 -> block_from_value w = Some b -> data_decode E b = Some c -> c_content c <> None -> c_keyloc c = Some loc ->
  o_pubkey_ok E (public_key c) = true -> ~ trusted E cfg c ->
  (exists info, h_out h = Ok (4, info)) /\ rq_status (h_req h) = 4.
Proof. exact possession_untrusted. Qed.
Print Assumptions C34_untrusted.
Example C34_untrusted_case : (exists h, handle_challenge toy (cf_chal w_cfg) (x_inputs x_now 1) (bs "possession") [Tlv 161 (bs "possession"); Tlv 133 (bs "issued-cert"); Tlv 135 (enc_tlv (cert_tlv toy fw_self))] p_r1 = Some h) /\
  (exists anchors, cc_anchors (cf_chal w_cfg) = Ok anchors) /\ rq_status p_r1 = 0 /\ block_from_value (enc_tlv (cert_tlv toy fw_self)) = Some (cert_tlv toy fw_self) /\ data_decode toy (cert_tlv toy fw_self) = Some fw_self /\
  c_content fw_self <> None /\ (exists loc, c_keyloc fw_self = Some loc) /\ o_pubkey_ok toy (public_key fw_self) = true /\ ~ trusted toy (cf_chal w_cfg) fw_self.
Proof.
  split; [eexists; reflexivity|]. split; [eexists; reflexivity|]. split; [reflexivity|]. split; [vm_compute; reflexivity|]. split; [vm_compute; reflexivity|]. split; [discriminate|].
  split; [eexists; reflexivity|]. split; [vm_compute; reflexivity|exact fw_self_untrusted].
Qed.

(** ** C96: the parameters the library fills in pass the possession challenge *)
(** The first step: the parameters the module asks for, filled in with a trusted certificate, make a payload that starts the challenge with that certificate. *)
Theorem C96_start : forall E cfg i r c sk nonce, codec_laws E -> wf_cert c -> fits (o_cert_wire E c) -> c_content c <> None -> trusted E cfg c -> o_pubkey_ok E (public_key c) = true ->
  rq_status r = 0 ->
  exists asked payload h cs, requested_params (bs "possession") 0 [] = Some (Ok asked) /\ gen_challenge_tlv (bs "possession") 0 [] (fulfill_parameters E asked c sk nonce) = Some (Ok payload) /\
    handle_challenge E cfg i (bs "possession") payload r = Some h /\ h_out h = Ok (0, []) /\ rq_status (h_req h) = 1 /\ rq_cs (h_req h) = Some cs /\ proves E cs c (rnd_nonce i).
Proof. exact @filled_start. Qed.
Print Assumptions C96_start.
(** The second step, with the nonce on record and the certificate's own key: the challenge is passed. *)
Theorem C96_proof : forall E cfg i r c sk nonce cs anchors, codec_laws E -> sig_laws E -> wf_cert c -> fits (o_cert_wire E c) -> cert_ok c = true -> cc_anchors cfg = Ok anchors ->
  rq_status r <> 0 -> rq_cs r = Some cs -> proves E cs c nonce -> public_key c = o_pub E sk -> o_sign E sk (MRaw nonce) <> [] ->
  exists asked payload h, requested_params (bs "possession") 1 (cs_status cs) = Some (Ok asked) /\ gen_challenge_tlv (bs "possession") 1 (cs_status cs) (fulfill_parameters E asked c sk nonce) = Some (Ok payload) /\
    handle_challenge E cfg i (bs "possession") payload r = Some h /\ h_out h = Ok (0, []) /\ rq_status (h_req h) = 2.
Proof. exact @filled_proof. Qed.
Print Assumptions C96_proof.
(** Nothing else is touched. *)
Theorem C96_fills : forall E params c sk nonce, map fst (fulfill_parameters E params c sk nonce) = map fst params /\
  forall k v, In (k, v) (fulfill_parameters E params c sk nonce) <->
    (k = bs "issued-cert" /\ v = enc_tlv (cert_tlv E c) /\ In k (map fst params)) \/ (k = bs "proof" /\ v = o_sign E sk (MRaw nonce) /\ In k (map fst params)) \/
    (k <> bs "issued-cert" /\ k <> bs "proof" /\ In (k, v) params).
Proof. exact filled_all. Qed.
Print Assumptions C96_fills.
Example C96_case : wf_cert x_cred /\ fits (o_cert_wire toy x_cred) /\ c_content x_cred <> None /\ trusted toy (cf_chal w_cfg) x_cred /\ o_pubkey_ok toy (public_key x_cred) = true /\ rq_status p_r1 = 0 /\
  cert_ok x_cred = true /\ (exists anchors, cc_anchors (cf_chal w_cfg) = Ok anchors) /\ rq_status p_r2 <> 0 /\ rq_cs p_r2 = Some p_cs2 /\ proves toy p_cs2 x_cred (rnd_nonce (x_inputs (x_now + sec 10) 2)) /\
  public_key x_cred = o_pub toy x_cred_sk /\ o_sign toy x_cred_sk (MRaw (rnd_nonce (x_inputs (x_now + sec 10) 2))) <> [].
Proof.
  split; [exact fw_wf|]. split; [vm_compute; reflexivity|]. split; [discriminate|]. split; [exact (proj2 (proj2 (proj2 (proj2 (proj2 (proj2 (proj2 (proj2 (proj2 v_possession_start)))))))))|].
  split; [vm_compute; reflexivity|]. split; [reflexivity|]. split; [vm_compute; reflexivity|]. split; [eexists; reflexivity|]. split; [discriminate|]. split; [reflexivity|].
  split; [split; vm_compute; reflexivity|]. split; [vm_compute; reflexivity|vm_compute; discriminate].
Qed.
