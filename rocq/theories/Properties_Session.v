(** Requester and CA together.  [session] is in Spec_Requester.v: the exchanges of one honest requester with a
    CA, with anything else the CA does in between. *)
From Verif Require Import PossessionFacts SessionWitness.
Local Open Scope N_scope.

(** ** C36 An honest requester obtains a certificate with the pin challenge *)
(** The request is accepted, and the requester is told the configured challenges. *)
Theorem C36_opens : forall E g S (ops : store_ops S) ctype life ca0 s0 ri rj i keyname sk nb na, env_laws E -> config_fits g -> ca_at E g ops ca0 ->
  applies E g s0 ri i keyname sk nb na ->
  let creq := cert_request E sk ri keyname nb na in let id := id_for E (ca_idkey ca0) (c_name creq) in
  pending ops ca0 id = None -> length (ri_salt0 rj) = 32%nat ->
  exists ca es s, opening E g ops ca0 s0 ri rj i keyname sk nb na = Some (ca, es, s, p_challenges (cfp g)) /\
    session E g ops ctype life id sk creq None ca s.
Proof. exact open_ok. Qed.
Print Assumptions C36_opens.
Example C36_opens_case : env_laws toy /\ config_fits x_cfg /\ ca_at toy x_cfg (db_ops toy) x_ca0 /\
  applies toy x_cfg x_req0 (x_rin x_now 1) (x_inputs x_now 1) x_keyname x_sk x_now (x_now + sec 3600) /\
  cert_request toy x_sk (x_rin x_now 1) x_keyname x_now (x_now + sec 3600) = x_creq /\ id_for toy (ca_idkey x_ca0) (c_name x_creq) = v_id /\
  pending (db_ops toy) x_ca0 v_id = None /\ length (ri_salt0 (x_rin x_now 2)) = 32%nat.
Proof. split; [exact toy_laws|]. split; [exact v_fits|]. split; [exact x_at0|]. split; [exact v_applies|]. split; [exact v_creq|]. repeat split. Qed.

(** The challenge starts; the CA's status callback is given the code. *)
Theorem C36_starts : forall E g S (ops : store_ops S) id sk creq ca s ri rj i code, env_laws E -> config_fits g ->
  session E g ops (bs "pin") 3600 id sk creq None ca s -> gen_code (in_words i) = Ok code -> in_script_ok i = true -> (0 <= in_t2 i)%Z ->
  be_enc 8 (ri_iv ri) <> rnd_iv i -> clock_ok rj ->
  exists ca' s' d r, round E g ops ca s ri rj i (bs "pin") [] = Some (ca', [EUpdate r; EPut d; ECallback r], s') /\
    (exists cs, rq_cs r = Some cs /\ sec_get (bs "code") (cs_secrets cs) = Some code) /\
    session E g ops (bs "pin") 3600 id sk creq (Some (code, 0%nat, in_t2 i)) ca' s' /\
    rs_status s' = ST_CHALLENGE /\ rs_cstatus s' = bs "need-code" /\ rs_tries s' = 3%Z /\ rs_fresh s' = (ri_now rj + sec 3600)%Z.
Proof. exact pin_start. Qed.
Print Assumptions C36_starts.
Example C36_starts_case : (exists ca s, session toy x_cfg (db_ops toy) (bs "pin") 3600 v_id x_sk x_creq None ca s) /\
  gen_code (in_words (x_inputs (x_now + sec 10) 2)) = Ok x_code /\ be_enc 8 (ri_iv (x_rin x_now 3)) <> rnd_iv (x_inputs (x_now + sec 10) 2) /\
  clock_ok (x_rin x_now 4).
Proof. split; [exact (v_open (bs "pin") 3600)|]. split; [vm_compute; reflexivity|]. split; [vm_compute; discriminate|exact v_clock]. Qed.

(** A wrong code costs one try, and the requester is told so. *)
Theorem C36_wrong_code : forall E g S (ops : store_ops S) id sk creq code k t ca s ri rj i given, env_laws E -> config_fits g ->
  session E g ops (bs "pin") 3600 id sk creq (Some (code, k, t)) ca s -> given <> code -> blen given < 2 ^ 30 ->
  (t <= in_t1 i < t + sec 3600 - 1000 /\ 0 <= in_t2 i)%Z -> clock_ok rj -> (k < 2)%nat ->
  exists ca' s' d r, round E g ops ca s ri rj i (bs "pin") [(bs "code", given)] = Some (ca', [EUpdate r; EPut d; ECallback r], s') /\
    session E g ops (bs "pin") 3600 id sk creq (Some (code, Datatypes.S k, in_t2 i)) ca' s' /\
    rs_status s' = ST_CHALLENGE /\ rs_cstatus s' = bs "wrong-code" /\ rs_tries s' = (2 - Z.of_nat k)%Z /\
    (ri_now rj <= rs_fresh s' <= ri_now rj + sec 3600)%Z.
Proof. exact pin_wrong. Qed.
Print Assumptions C36_wrong_code.
(** At most two wrong codes: the third ends the session. *)
Theorem C36_tries : forall E g S (ops : store_ops S) id sk creq code k t ca s, env_laws E -> config_fits g ->
  session E g ops (bs "pin") 3600 id sk creq (Some (code, k, t)) ca s -> (k <= 2)%nat.
Proof. exact pin_tries. Qed.
Print Assumptions C36_tries.
(** The right code, within the lifetime and after at most two wrong ones, ends in SUCCESS with the name of a
    certificate for the requester's key; the request is gone. *)
Theorem C36_succeeds : forall E g S (ops : store_ops S) id sk creq code k t ca s ri rj i, env_laws E -> config_fits g ->
  session E g ops (bs "pin") 3600 id sk creq (Some (code, k, t)) ca s -> (t <= in_t1 i < t + sec 3600 - 1000)%Z -> clock_ok rj ->
  exists ca' s' c d r, round E g ops ca s ri rj i (bs "pin") [(bs "code", code)] = Some (ca', [EIssue c; EDelete id; EPut d; ECallback r], s') /\
    certifies E g creq c /\ public_key c = o_pub E sk /\ rs_status s' = ST_SUCCESS /\ rs_issued s' = c_name c /\
    rs_fwd s' = p_fwd (cfp g) /\ pending ops ca' id = None.
Proof. exact pin_right. Qed.
Print Assumptions C36_succeeds.
Example C36_case : (exists ca s, session toy x_cfg (db_ops toy) (bs "pin") 3600 v_id x_sk x_creq (Some (x_code, 1%nat, x_now + sec 20)%Z) ca s) /\
  bs "111111" <> x_code /\ (x_now + sec 20 <= in_t1 (x_inputs (x_now + sec 30) 4) < x_now + sec 20 + sec 3600 - 1000)%Z /\ clock_ok (x_rin x_now 4).
Proof. split; [exact v_pin|]. split; [vm_compute; discriminate|]. split; [meets|exact v_clock]. Qed.

(** ** C37 An honest requester obtains a certificate with the email challenge *)
(** The challenge starts: the script is run with the address and the code. *)
Theorem C37_starts : forall E g S (ops : store_ops S) id sk creq ca s ri rj i addr code, env_laws E -> config_fits g ->
  session E g ops (bs "email") 300 id sk creq None ca s -> gen_code (in_words i) = Ok code -> in_script_ok i = true -> (0 <= in_t2 i)%Z ->
  be_enc 8 (ri_iv ri) <> rnd_iv i -> clock_ok rj -> blen addr < 2 ^ 30 ->
  exists ca' s' d r cmd, round E g ops ca s ri rj i (bs "email") [(bs "email", addr)] = Some (ca', [EEmail cmd; EUpdate r; EPut d; ECallback r], s') /\
    (cc_script (cf_chal g) <> [] -> ~ In x22 (cc_script (cf_chal g)) -> ~ In x20 (cc_script (cf_chal g)) -> ~ In x22 addr ->
     build_args cmd = Ok [cc_script (cf_chal g); addr; code; o_to_uri E (p_prefix (cfp g)); o_to_uri E (c_name creq)]) /\
    session E g ops (bs "email") 300 id sk creq (Some (code, 0%nat, in_t2 i)) ca' s' /\
    rs_status s' = ST_CHALLENGE /\ rs_cstatus s' = bs "need-code" /\ rs_tries s' = 3%Z /\ rs_fresh s' = (ri_now rj + sec 300)%Z.
Proof. exact email_start. Qed.
Print Assumptions C37_starts.
Example C37_starts_case : (exists ca s, session toy x_cfg (db_ops toy) (bs "email") 300 v_id x_sk x_creq None ca s) /\
  gen_code (in_words (x_inputs (x_now + sec 10) 2)) = Ok x_code /\ be_enc 8 (ri_iv (x_rin x_now 3)) <> rnd_iv (x_inputs (x_now + sec 10) 2) /\
  clock_ok (x_rin x_now 4) /\ cc_script (cf_chal x_cfg) <> [] /\ ~ In x22 (cc_script (cf_chal x_cfg)) /\ ~ In x20 (cc_script (cf_chal x_cfg)) /\
  ~ In x22 (bs "alice@example.com").
Proof.
  split; [exact (v_open (bs "email") 300)|]. split; [vm_compute; reflexivity|]. split; [vm_compute; discriminate|]. split; [exact v_clock|].
  split; [discriminate|]. split; [|split]; vm_compute; intuition discriminate.
Qed.
(** A wrong code costs one try, and the requester is told so. *)
Theorem C37_wrong_code : forall E g S (ops : store_ops S) id sk creq code k t ca s ri rj i given, env_laws E -> config_fits g ->
  session E g ops (bs "email") 300 id sk creq (Some (code, k, t)) ca s -> given <> code -> blen given < 2 ^ 30 ->
  (t <= in_t1 i < t + sec 300 - 1000 /\ 0 <= in_t2 i)%Z -> clock_ok rj -> (k < 2)%nat ->
  exists ca' s' d r, round E g ops ca s ri rj i (bs "email") [(bs "code", given)] = Some (ca', [EUpdate r; EPut d; ECallback r], s') /\
    session E g ops (bs "email") 300 id sk creq (Some (code, Datatypes.S k, in_t2 i)) ca' s' /\
    rs_status s' = ST_CHALLENGE /\ rs_cstatus s' = bs "wrong-code" /\ rs_tries s' = (2 - Z.of_nat k)%Z /\
    (ri_now rj <= rs_fresh s' <= ri_now rj + sec 300)%Z.
Proof. exact email_wrong. Qed.
Print Assumptions C37_wrong_code.
(** At most two wrong codes: the third ends the session. *)
Theorem C37_tries : forall E g S (ops : store_ops S) id sk creq code k t ca s, env_laws E -> config_fits g ->
  session E g ops (bs "email") 300 id sk creq (Some (code, k, t)) ca s -> (k <= 2)%nat.
Proof. exact email_tries. Qed.
Print Assumptions C37_tries.
(** The right code, within the lifetime and after at most two wrong ones, ends in SUCCESS with the name of a
    certificate for the requester's key; the request is gone. *)
Theorem C37_succeeds : forall E g S (ops : store_ops S) id sk creq code k t ca s ri rj i, env_laws E -> config_fits g ->
  session E g ops (bs "email") 300 id sk creq (Some (code, k, t)) ca s -> (t <= in_t1 i < t + sec 300 - 1000)%Z -> clock_ok rj ->
  exists ca' s' c d r, round E g ops ca s ri rj i (bs "email") [(bs "code", code)] = Some (ca', [EIssue c; EDelete id; EPut d; ECallback r], s') /\
    certifies E g creq c /\ public_key c = o_pub E sk /\ rs_status s' = ST_SUCCESS /\ rs_issued s' = c_name c /\
    rs_fwd s' = p_fwd (cfp g) /\ pending ops ca' id = None.
Proof. exact email_right. Qed.
Print Assumptions C37_succeeds.
Example C37_case : (exists ca s, session toy x_cfg (db_ops toy) (bs "email") 300 v_id x_sk x_creq (Some (x_code, 0%nat, x_now + sec 10)%Z) ca s) /\
  bs "111111" <> x_code /\ (x_now + sec 10 <= in_t1 (x_inputs (x_now + sec 30) 4) < x_now + sec 10 + sec 300 - 1000)%Z /\ clock_ok (x_rin x_now 4).
Proof. split; [exact v_email|]. split; [vm_compute; discriminate|]. split; [meets|exact v_clock]. Qed.

(** ** C38 An honest requester obtains a certificate with the possession challenge *)
(** It never does: the library names the challenge "Possession", which is no challenge of the CA.  The CA answers
    with an error and forgets the request, and the requester throws. *)
Theorem C38_start_refuted : forall E g S (ops : store_ops S) life id sk creq ca s ri i t, env_laws E -> config_fits g ->
  session E g ops (bs "possession") life id sk creq None ca s -> wf_tlv t -> blen (enc_tlv t) < 2 ^ 30 ->
  exists x s' ca' d, (exists m s1, select_challenge s (bs "possession") = (Ok m, s1) /\ gen_challenge E s1 ri [(bs "issued-cert", enc_tlv t)] = (Ok x, s')) /\
    step E g ops ca (EvInterest i x) = Some (ca', [EDelete id; EPut d]) /\ error_reply E g x (4 (* invalid parameter *)) d /\ pending ops ca' id = None /\
    forall rj, fst (on_challenge_response E s' rj d) = Exn.
Proof. exact possession_lost. Qed.
Print Assumptions C38_start_refuted.
Example C38_start_case : (exists ca s, session toy x_cfg (db_ops toy) (bs "possession") 0 v_id x_sk x_creq None ca s) /\
  In (bs "possession") (p_challenges (cfp x_cfg)) /\ wf_tlv (cert_tlv toy x_cred) /\ blen (enc_tlv (cert_tlv toy x_cred)) < 2 ^ 30.
Proof. split; [exact (v_open (bs "possession") 0)|]. split; [vm_compute; auto|]. meets. Qed.
(** The second step of the library, the proof, does not name a challenge at all: the CA's handler throws. *)
Theorem C38_proof_refuted : forall E g S (ops : store_ops S) s i x id r params proof cstatus mine, ca_at E g ops s -> names_request g id x -> pending ops s id = Some r ->
  signed_by E x (public_key (rq_cert r)) -> step_payload (bs "possession") ST_CHALLENGE cstatus [(mine, proof)] params -> acceptable E r x params ->
  on_interest E g ops s i x = ([], Exn).
Proof. exact proof_throws. Qed.
Print Assumptions C38_proof_refuted.
Example C38_proof_case : ca_at toy w_cfg mem_ops (fst p_ca2) /\ names_request w_cfg z_id v_chal2 /\ pending mem_ops (fst p_ca2) z_id = Some p_r2 /\
  signed_by toy v_chal2 (public_key (rq_cert p_r2)) /\
  step_payload (bs "possession") ST_CHALLENGE (bs "need-proof") [(bs "proof", p_sig)] v_proof /\ acceptable toy p_r2 v_chal2 v_proof.
Proof. exact v_case. Qed.

(** A requester that does use the CA's name of the challenge gets its certificate: the challenge starts with a nonce, *)
Theorem C38_ca_starts_partial : forall E g S (ops : store_ops S) s i x id r w b c, aes_laws E -> ca_at E g ops s -> names_request g id x -> pending ops s id = Some r -> rq_status r = ST_BEFORE ->
  signed_by E x (public_key (rq_cert r)) -> acceptable E r x (start_params w) -> block_from_value w = Some b -> data_decode E b = Some c -> c_content c <> None ->
  trusted E (cf_chal g) c -> o_pubkey_ok E (public_key c) = true ->
  exists s' es d l r' cs, step E g ops s (EvInterest i x) = Some (s', es) /\ puts es = [d] /\ d_name d = i_name x /\ data_signed_by E d (cf_sk g) /\
    reply_opens E (rq_key r) id d l /\ says l T_Status ST_CHALLENGE /\ says l T_RemainingTries 1 /\ says l T_RemainingTime 60 /\ pair_in l (bs "nonce") (rnd_nonce i) /\
    pending ops s' id = Some r' /\ rq_status r' = ST_CHALLENGE /\ rq_cs r' = Some cs /\ proves E cs c (rnd_nonce i) /\
    rq_key r' = rq_key r /\ rq_cert r' = rq_cert r /\ rq_type r' = rq_type r.
Proof. exact @possession_starts. Qed.
Print Assumptions C38_ca_starts_partial.
(** and a signature over the nonce by the credential's key gets the certificate. *)
Theorem C38_ca_succeeds_partial : forall E g S (ops : store_ops S) s i x id r cs c nonce sig, aes_laws E -> codec_laws E -> ca_at E g ops s -> names_request g id x -> pending ops s id = Some r -> rq_cs r = Some cs -> rq_type r = RT_NEW ->
  signed_by E x (public_key (rq_cert r)) -> acceptable E r x (proof_params sig) -> proves E cs c nonce ->
  (exists params0, credential_in E params0 c) -> cert_ok c = true -> o_pubkey_ok E (public_key c) = true -> (exists anchors, cc_anchors (cf_chal g) = Ok anchors) ->
  sig <> [] -> o_verify E (public_key c) (MRaw nonce) sig = true ->
  blen (name_wire (c_name (rq_cert r))) < 2 ^ 31 -> blen (name_wire (p_fwd (cfp g))) < 2 ^ 32 ->
  exists s' es k d l t, step E g ops s (EvInterest i x) = Some (s', es) /\ In (EIssue k) es /\ certifies E g (rq_cert r) k /\ pending ops s' id = None /\
    puts es = [d] /\ d_name d = i_name x /\ data_signed_by E d (cf_sk g) /\ reply_opens E (rq_key r) id d l /\ says l T_Status ST_SUCCESS /\
    get T_IssuedCertName l = Some t /\ t_val t = name_wire (c_name k).
Proof. exact @possession_succeeds. Qed.
Print Assumptions C38_ca_succeeds_partial.
Example C38_ca_case : (exists w, p_start = start_params w /\ block_from_value w = Some (cert_tlv toy x_cred)) /\ data_decode toy (cert_tlv toy x_cred) = Some x_cred /\ c_content x_cred <> None /\
  ca_at toy w_cfg mem_ops (fst w_ca1) /\ names_request w_cfg z_id (fst p_chal1) /\ pending mem_ops (fst w_ca1) z_id = Some p_r1 /\ rq_status p_r1 = ST_BEFORE /\
  signed_by toy (fst p_chal1) (public_key (rq_cert p_r1)) /\ acceptable toy p_r1 (fst p_chal1) p_start /\ trusted toy (cf_chal w_cfg) x_cred.
Proof. exact v_possession_start. Qed.
Example C38_ca_proof_case : p_proof p_sig = proof_params p_sig /\ ca_at toy w_cfg mem_ops (fst p_ca2) /\ names_request w_cfg z_id (fst p_chal2) /\ pending mem_ops (fst p_ca2) z_id = Some p_r2 /\ rq_cs p_r2 = Some p_cs2 /\ rq_type p_r2 = RT_NEW /\
  signed_by toy (fst p_chal2) (public_key (rq_cert p_r2)) /\ acceptable toy p_r2 (fst p_chal2) (p_proof p_sig) /\ proves toy p_cs2 x_cred (rnd_nonce (x_inputs (x_now + sec 10) 2)) /\
  credential_in toy p_start x_cred /\ cert_ok x_cred = true /\ o_pubkey_ok toy (public_key x_cred) = true /\ (exists anchors, cc_anchors (cf_chal w_cfg) = Ok anchors) /\
  p_sig <> [] /\ o_verify toy (public_key x_cred) (MRaw (rnd_nonce (x_inputs (x_now + sec 10) 2))) p_sig = true.
Proof. exact v_possession_proof. Qed.

(** ** C39 Requester and CA agree on the session key *)
Theorem C39_keys : forall E g S (ops : store_ops S) ca i rt x c s ri cc, ecdh_laws E -> hash_laws E -> sig_laws E -> ca_at E g ops ca -> suffix_limit_sane g ->
  Forall fits (p_challenges (cfp g)) -> rt = RT_NEW \/ rt = RT_REVOKE -> addressed g (verb_of rt) (i_name x) ->
  let id := id_for E (ca_idkey ca) (c_name c) in
  admissible E g i rt id x (o_ecdh_pub E (rs_ecdh s)) c -> pending ops ca id = None ->
  p_cert (rs_profile s) = Some cc -> public_key cc = o_pub E (cf_sk g) -> length (rs_id s) = 8%nat -> length (ri_salt0 ri) = 32%nat ->
  exists ca' es d r s', step E g ops ca (EvInterest i x) = Some (ca', es) /\ puts es = [d] /\ pending ops ca' id = Some r /\
    on_new_response E s ri d = (Ok (p_challenges (cfp g)), s') /\ rs_key s' = rq_key r /\ rs_id s' = rq_id r /\ rq_id r = id /\ rq_cert r = c /\ rq_type r = rt.
Proof. exact keys_agree. Qed.
Print Assumptions C39_keys.
Example C39_case : ca_at toy x_cfg (db_ops toy) x_ca0 /\ suffix_limit_sane x_cfg /\ Forall fits (p_challenges (cfp x_cfg)) /\ addressed x_cfg (verb_of RT_NEW) (i_name x_new_interest) /\
  admissible toy x_cfg (x_inputs x_now 1) RT_NEW v_id x_new_interest (o_ecdh_pub toy (rs_ecdh x_req1)) x_creq /\ pending (db_ops toy) x_ca0 v_id = None /\
  p_cert (rs_profile x_req1) = Some x_ca_cert /\ public_key x_ca_cert = o_pub toy (cf_sk x_cfg) /\ length (rs_id x_req1) = 8%nat.
Proof.
  split; [exact x_at0|]. split; [exact x_sane|]. split; [meets|]. split; [exact x_addressed|]. split; [exact x_admissible|]. repeat split.
Qed.
