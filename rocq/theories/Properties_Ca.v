(** The CA's handlers: theorems C15-C21, C28, C29, C33-C35, C43, C57, C61-C63.  Vocabulary in Spec_Ca.v and Spec_Email.v.
    [ca_at E g ops s]: a CA with configuration [g] and one of the two storages, in a state [s] it can be in. *)
From Verif Require Import CaWitness.
Local Open Scope N_scope.

(** ** C15: admission control of NEW requests *)
Theorem C15_new_accepted : forall E g S (ops : store_ops S) s i rt x peer c, ca_at E g ops s -> suffix_limit_sane g ->
  rt = RT_NEW \/ rt = RT_REVOKE -> addressed g (verb_of rt) (i_name x) ->
  let id := id_for E (ca_idkey s) (c_name c) in
  admissible E g i rt id x peer c -> pending ops s id = None ->
  exists s', step E g ops s (EvInterest i x) =
    Some (s', [EAdd (created E g i rt id peer c); EPut (new_reply E g i x id); ECallback (created E g i rt id peer c)]) /\
    pending ops s' id = Some (created E g i rt id peer c) /\ forall id', id' <> id -> pending ops s' id' = pending ops s id'.
Proof. exact new_accepted. Qed.
Print Assumptions C15_new_accepted.
Example C15_case : ca_at toy x_cfg (db_ops toy) x_ca0 /\ suffix_limit_sane x_cfg /\ addressed x_cfg VNew (i_name x_new_interest) /\
  admissible toy x_cfg (x_inputs x_now 1) RT_NEW (id_for toy (ca_idkey x_ca0) (c_name x_creq)) x_new_interest x_peer x_creq /\
  pending (db_ops toy) x_ca0 (id_for toy (ca_idkey x_ca0) (c_name x_creq)) = None.
Proof. split; [exact x_at0|]. split; [exact x_sane|]. split; [exact x_addressed|]. split; [exact x_admissible|reflexivity]. Qed.

(** Every other Interest: an error with a code that fits (see [refusal]), or the handler throws (see [new_throws]). *)
Theorem C15_otherwise_partial : forall E g S (ops : store_ops S) s i rt x, ca_at E g ops s -> suffix_limit_sane g ->
  rt = RT_NEW \/ rt = RT_REVOKE -> addressed g (verb_of rt) (i_name x) ->
  (forall peer c, let id := id_for E (ca_idkey s) (c_name c) in
     ~ (admissible E g i rt id x peer c /\ pending ops s id = None)) ->
  (exists d code, step E g ops s (EvInterest i x) = Some (s, [EPut d]) /\ error_reply E g x code d /\
     refusal E g i rt (ca_idkey s) (fun id => pending ops s id <> None) x code) \/
  (on_interest E g ops s i x = ([], Exn) /\ new_throws E g i rt (ca_idkey s) x).
Proof. exact new_otherwise. Qed.
Print Assumptions C15_otherwise_partial.
Example C15_otherwise_case : (forall peer c, let id := id_for toy (ca_idkey x_ca0) (c_name c) in
     ~ (admissible toy x_cfg (x_inputs x_now 1) RT_NEW id z_new peer c /\ pending (db_ops toy) x_ca0 id = None)) /\
  addressed x_cfg VNew (i_name z_new) /\
  map (fun d => fst (err_decode (d_content d))) (puts (fst (on_interest toy x_cfg (db_ops toy) x_ca0 (x_inputs x_now 1) z_far))) = [NAME_NOT_ALLOWED].
Proof. split; [exact z_not_admissible|]. split; [exact z_new_addressed|meets]. Qed.
(** Not always an error reply: a request without validity period makes the handler throw. *)
Theorem C15_error_refuted : exists g s i x, ca_at toy g (db_ops toy) s /\ suffix_limit_sane g /\ addressed g VNew (i_name x) /\
  on_interest toy g (db_ops toy) s i x = ([], Exn).
Proof. exact new_unanswered. Qed.
Print Assumptions C15_error_refuted.

(** ** C16: a pending request is never overwritten *)
Theorem C16_stored_stays : forall E g S (ops : store_ops S) s ev s' es id r, ca_at E g ops s ->
  (exists i x rt, ev = EvInterest i x /\ (rt = RT_NEW \/ rt = RT_REVOKE) /\ addressed g (verb_of rt) (i_name x)) ->
  step E g ops s ev = Some (s', es) -> pending ops s id = Some r -> pending ops s' id = Some r.
Proof. exact stored_stays. Qed.
Print Assumptions C16_stored_stays.
Theorem C16_duplicate : forall E g S (ops : store_ops S) s i rt x peer c, ca_at E g ops s -> suffix_limit_sane g ->
  rt = RT_NEW \/ rt = RT_REVOKE -> addressed g (verb_of rt) (i_name x) ->
  let id := id_for E (ca_idkey s) (c_name c) in
  admissible E g i rt id x peer c -> pending ops s id <> None ->
  exists d, step E g ops s (EvInterest i x) = Some (s, [EPut d]) /\ error_reply E g x (4 (* invalid parameter *)) d.
Proof. exact duplicate_answer. Qed.
Print Assumptions C16_duplicate.
(** The same NEW Interest again. *)
Example C16_case : ca_at toy x_cfg (db_ops toy) (fst x_ca1) /\
  admissible toy x_cfg (x_inputs x_now 1) RT_NEW (id_for toy (ca_idkey (fst x_ca1)) (c_name x_creq)) x_new_interest x_peer x_creq /\
  pending (db_ops toy) (fst x_ca1) (id_for toy (ca_idkey (fst x_ca1)) (c_name x_creq)) <> None /\
  exists d, step toy x_cfg (db_ops toy) (fst x_ca1) (EvInterest (x_inputs x_now 1) x_new_interest) = Some (fst x_ca1, [EPut d]).
Proof. split; [exact x_at1|]. split; [exact x_admissible|]. split; [vm_compute; discriminate|]. eexists. vm_compute. reflexivity. Qed.

(** ** C17: requests do not interfere *)
Theorem C17_others_untouched : forall E g S (ops : store_ops S) s i x s' es id, ca_at E g ops s ->
  step E g ops s (EvInterest i x) = Some (s', es) -> ~ names_request g id x -> pending ops s id <> None ->
  pending ops s' id = pending ops s id.
Proof. exact others_untouched. Qed.
Print Assumptions C17_others_untouched.
Theorem C17_bystanders : forall E g S (ops : store_ops S) s i x s' es, ca_at E g ops s -> 
  step E g ops s (EvInterest i x) = Some (s', es) ->
  ~ addressed g VNew (i_name x) -> ~ addressed g VRevoke (i_name x) -> ~ addressed g VChallenge (i_name x) ->
  forall id, pending ops s' id = pending ops s id.
Proof. exact bystanders. Qed.
Print Assumptions C17_bystanders.
(** Two pending requests (NEW of another key, REVOKE); a challenge of the second. *)
Example C17_case : ca_at toy w_cfg mem_ops (fst u_ca1) /\
  step toy w_cfg mem_ops (fst u_ca1) (EvInterest (x_inputs (x_now + sec 50) 6) (fst v_chal1)) = Some u_ca2 /\
  ~ names_request w_cfg u_id (fst v_chal1) /\ pending mem_ops (fst u_ca1) u_id <> None /\
  pending mem_ops (fst u_ca1) v_id <> pending mem_ops (fst u_ca2) v_id.
Proof. split; [exact u_at1|]. split; [exact u_step2|]. split; [exact u_other|]. split; vm_compute; discriminate. Qed.

(** ** C18: every handled Interest gets exactly one reply with its own name *)
Theorem C18_one_reply : forall E g S (ops : store_ops S) s i x es, ca_at E g ops s ->
  addressed g VNew (i_name x) \/ addressed g VRevoke (i_name x) \/ addressed g VChallenge (i_name x) ->
  on_interest E g ops s i x = (es, Ok tt) ->
  exists d, puts es = [d] /\ d_name d = i_name x /\ data_signed_by E d (cf_sk g) /\ d_fresh d = sec 1.
Proof. exact one_reply. Qed.
Print Assumptions C18_one_reply.
Example C18_case : ca_at toy w_cfg mem_ops (fst w_ca1) /\ addressed w_cfg VChallenge (i_name (fst w_mail)) /\
  on_interest toy w_cfg mem_ops (fst w_ca1) (x_inputs (x_now + sec 10) 2) (fst w_mail) = (snd w_ca2, Ok tt).
Proof. split; [exact w_at1|]. split; [eexists; vm_compute; reflexivity|meets]. Qed.
(** PROBE: one reply, or none because the parameters cannot be decoded or a name assignment throws. *)
Theorem C18_probe_partial : forall E g S (ops : store_ops S) s i x es, addressed g VProbe (i_name x) ->
  on_interest E g ops s i x = (es, Ok tt) ->
  (exists d, es = [EPut d] /\ d_name d = i_name x /\ data_signed_by E d (cf_sk g) /\ d_fresh d = sec 1 /\
     exists params, probe_params_decode (params_of x) = Ok params /\
       forall fmt, In (Assign AParam fmt) (assignments g) -> ~ param_throws E params fmt) \/
  (es = [] /\ ((forall params, probe_params_decode (params_of x) <> Ok params) \/
     exists params fmt, probe_params_decode (params_of x) = Ok params /\ In (Assign AParam fmt) (assignments g) /\ param_throws E params fmt)).
Proof. exact probe_reply. Qed.
Print Assumptions C18_probe_partial.
Example C18_probe_case : addressed x_cfg VProbe (i_name (y_probe y_params)) /\
  exists d, on_interest toy x_cfg (db_ops toy) x_ca0 (x_inputs x_now 1) (y_probe y_params) = ([EPut d], Ok tt).
Proof. split; [eexists; vm_compute; reflexivity|]. eexists. vm_compute. reflexivity. Qed.
(** Decodable parameters without a reply. *)
Theorem C18_probe_refuted : exists g s i x params, ca_at toy g (db_ops toy) s /\ addressed g VProbe (i_name x) /\
  probe_params_decode (params_of x) = Ok params /\ on_interest toy g (db_ops toy) s i x = ([], Ok tt).
Proof. exact probe_unanswered. Qed.
Print Assumptions C18_probe_refuted.

(** ** C19: exceptions *)
Theorem C19_new_refuted : exists g s i x, ca_at toy g (db_ops toy) s /\ suffix_limit_sane g /\ addressed g VNew (i_name x) /\
  on_interest toy g (db_ops toy) s i x = ([], Exn).
Proof. exact new_unanswered. Qed.
Print Assumptions C19_new_refuted.
(** An encrypted payload that is no list of elements. *)
Theorem C19_challenge_refuted : exists g s i x, ca_at toy g (db_ops toy) s /\ addressed g VChallenge (i_name x) /\
  on_interest toy g (db_ops toy) s i x = ([], Exn).
Proof. exact challenge_throws. Qed.
Print Assumptions C19_challenge_refuted.
(** What it takes to make a handler throw. *)
Theorem C19_throws_partial : forall E g S (ops : store_ops S) s i x es, on_interest E g ops s i x = (es, Exn) ->
  (exists rt, (rt = RT_NEW \/ rt = RT_REVOKE) /\ addressed g (verb_of rt) (i_name x) /\ es = [] /\ new_throws E g i rt (ca_idkey s) x) \/
  (exists id r, names_request g id x /\ pending ops s id = Some r /\ signed_by E x (public_key (rq_cert r))) \/
  addressed g VInfo (i_name x).
Proof. exact throws_only. Qed.
Print Assumptions C19_throws_partial.
Example C19_case : on_interest toy x_cfg (db_ops toy) x_ca0 (x_inputs x_now 1) z_new = ([], Exn).
Proof. exact z_new_throws. Qed.
Theorem C19_probe : forall E g S (ops : store_ops S) s i x, addressed g VProbe (i_name x) -> snd (on_interest E g ops s i x) <> Exn.
Proof. exact probe_throws_never. Qed.
Print Assumptions C19_probe.
Example C19_probe_case : addressed x_cfg VProbe (i_name z_probe).
Proof. eexists. vm_compute. reflexivity. Qed.

(** ** C20: memory safety of reading the request ID *)
Theorem C20_memory_refuted : exists g s i x, ca_at toy g (db_ops toy) s /\ i_sig x = None /\ snd (on_interest toy g (db_ops toy) s i x) = UB.
Proof. exact challenge_memory. Qed.
Print Assumptions C20_memory_refuted.
(** Whenever the component has another length than 8 bytes. *)
Theorem C20_overrun_refuted : forall E g S (ops : store_ops S) s i x ty c rest,
  i_name x = p_prefix (cfp g) ++ [gc (bs "CA"); gc (bs "CHALLENGE"); Tlv ty c] ++ rest -> length c <> 8%nat ->
  on_interest E g ops s i x = ([], UB).
Proof. exact challenge_overrun. Qed.
Print Assumptions C20_overrun_refuted.
(** With 8 bytes (or no component at all) the whole handler is free of undefined behaviour, if loading the anchors is. *)
Theorem C20_safe_partial : forall E g S (ops : store_ops S) s i x, ca_at E g ops s -> addressed g VChallenge (i_name x) ->
  cc_anchors (cf_chal g) <> UB ->
  (forall ty c rest, i_name x = p_prefix (cfp g) ++ [gc (bs "CA"); gc (bs "CHALLENGE"); Tlv ty c] ++ rest -> length c = 8%nat) ->
  snd (on_interest E g ops s i x) <> UB.
Proof. exact challenge_safe. Qed.
Print Assumptions C20_safe_partial.
Example C20_case : ca_at toy x_cfg (db_ops toy) (fst x_ca1) /\ addressed x_cfg VChallenge (i_name (the_interest x_chal1)) /\ cc_anchors (cf_chal x_cfg) <> UB /\
  (forall ty c rest, i_name (the_interest x_chal1) = p_prefix (cfp x_cfg) ++ [gc (bs "CA"); gc (bs "CHALLENGE"); Tlv ty c] ++ rest -> length c = 8%nat) /\
  length (bs "123456789") <> 8%nat.
Proof.
  split; [exact x_at1|]. split; [eexists; vm_compute; reflexivity|]. split; [discriminate|]. split; [|vm_compute; discriminate].
  intros ty c rest Q. vm_compute in Q. injection Q as _ <- _. reflexivity.
Qed.

(** ** C21: only the holder of the requested key can drive a request *)
Theorem C21_unsigned_refused : forall E g S (ops : store_ops S) s i x id r, ca_at E g ops s -> names_request g id x ->
  pending ops s id = Some r -> ~ signed_by E x (public_key (rq_cert r)) ->
  exists d, step E g ops s (EvInterest i x) = Some (s, [EPut d]) /\ error_reply E g x (3 (* bad signature *)) d.
Proof. exact unsigned_refused. Qed.
Print Assumptions C21_unsigned_refused.
(** The right parameters, signed by somebody else. *)
Example C21_case : ca_at toy w_cfg mem_ops (fst w_ca1) /\ names_request w_cfg z_id u_forged /\ pending mem_ops (fst w_ca1) z_id = Some w_pending /\
  ~ signed_by toy u_forged (public_key (rq_cert w_pending)) /\ params_of u_forged = params_of (fst w_mail) /\ i_sig u_forged <> None.
Proof. split; [exact w_at1|]. split; [exact u_forged_names|]. split; [meets|]. split; [exact u_forged_unsigned|]. split; [meets|discriminate]. Qed.

(** ** C28: only configured challenges *)
Theorem C28_new_reply_lists : forall E g i x id salt0 id0, fits (o_ecdh_pub E (in_sk i)) -> Forall fits (p_challenges (cfp g)) ->
  length id = 8%nat -> length salt0 = 32%nat -> length id0 = 8%nat ->
  reply_decode salt0 id0 (d_content (new_reply E g i x id)) =
  (Ok tt, Reply (o_ecdh_pub E (in_sk i)) (rnd_salt i) id (p_challenges (cfp g))).
Proof. exact new_reply_lists. Qed.
Print Assumptions C28_new_reply_lists.
Example C28_case : fits (o_ecdh_pub toy (in_sk (x_inputs x_now 1))) /\ Forall fits (p_challenges (cfp x_cfg)) /\ length z_id = 8%nat /\ length (repeat x00 32) = 32%nat.
Proof. meets. Qed.
(** A CA that lists only "pin" issues a certificate through the email challenge. *)
Theorem C28_issued_refuted : exists g s0 i1 x1 s1 es1 i2 x2 s2 es2 c,
  p_challenges (cfp g) = [bs "pin"] /\ ca_at toy g mem_ops s0 /\
  step toy g mem_ops s0 (EvInterest i1 x1) = Some (s1, es1) /\ step toy g mem_ops s1 (EvInterest i2 x2) = Some (s2, es2) /\
  (exists cmd, In (EEmail cmd) es1) /\ In (EIssue c) es2.
Proof. exact unlisted_challenge. Qed.
Print Assumptions C28_issued_refuted.

(** ** C29: the email challenge and the requested name *)
(** A code is mailed to an address that is not the last component of the requested identity. *)
Theorem C29_binding_refuted : exists g s i x s' es id r params t code, ca_at toy g mem_ops s /\ step toy g mem_ops s (EvInterest i x) = Some (s', es) /\
  names_request g id x /\ pending mem_ops s id = Some r /\ opens toy (rq_key r) id x params /\ get T_ParameterValue params = Some t /\
  In (EEmail (email_command toy (cc_script (cf_chal g)) (t_val t) code r)) es /\
  get_neg 1 (identity_of (c_name (rq_cert r))) <> Some (gc (t_val t)).
Proof. exact unrelated_address. Qed.
Print Assumptions C29_binding_refuted.
(** The true part: emails are sent only at the start of an email challenge, by the requester, to the given address. *)
Theorem C29_emails_partial : forall E g S (ops : store_ops S) s i x es o cmd, ca_at E g ops s -> on_interest E g ops s i x = (es, o) -> In (EEmail cmd) es ->
  exists id r params t code, names_request g id x /\ pending ops s id = Some r /\ rq_status r = ST_BEFORE /\
    signed_by E x (public_key (rq_cert r)) /\ opens E (rq_key r) id x params /\ selects params (bs "email") /\
    get T_ParameterValue params = Some t /\ gen_code (in_words i) = Ok code /\ cmd = email_command E (cc_script (cf_chal g)) (t_val t) code r.
Proof. exact emails_sent. Qed.
Print Assumptions C29_emails_partial.
Example C29_case : ca_at toy w_cfg mem_ops (fst w_ca1) /\
  on_interest toy w_cfg mem_ops (fst w_ca1) (x_inputs (x_now + sec 10) 2) (fst w_mail) = (snd w_ca2, Ok tt) /\ exists cmd, In (EEmail cmd) (snd w_ca2).
Proof. split; [exact w_at1|]. split; [meets|]. eexists. left. reflexivity. Qed.

(** ** C33: challenge state machine *)
Theorem C33_machine : forall E cfg i ty params r h, live r -> handle_challenge E cfg i ty params r = Some h ->
  (exists code info, h_out h = Ok (code, info) /\ code <> NO_ERROR /\ rq_status (h_req h) = ST_FAILURE /\ rq_cs (h_req h) = None) \/
  (h_out h = Ok (NO_ERROR, []) /\ rq_status (h_req h) = ST_CHALLENGE /\ rq_cs (h_req h) <> None) \/
  (h_out h = Ok (NO_ERROR, []) /\ rq_status (h_req h) = ST_PENDING /\ rq_cs (h_req h) = None /\
     rq_status r = ST_CHALLENGE /\ exists cs, rq_cs r = Some cs /\ passes E i params cs ty) \/
  ((forall a, h_out h <> Ok a) /\ h_req h = r).
Proof. exact chal_machine. Qed.
Print Assumptions C33_machine.
(** The requests a CA has stored. *)
Theorem C33_live : forall E g S (ops : store_ops S) s id r, ca_at E g ops s -> pending ops s id = Some r -> rq_id r = id /\ live r.
Proof. exact pending_live. Qed.
Print Assumptions C33_live.
Example C33_case : live p_r1 /\ live p_r2 /\
  handle_challenge toy (cf_chal w_cfg) (x_inputs (x_now + sec 10) 2) (bs "possession") p_start p_r1 = Some p_h1 /\ rq_status (h_req p_h1) = ST_CHALLENGE /\
  handle_challenge toy (cf_chal w_cfg) (x_inputs (x_now + sec 20) 3) (bs "possession") (p_proof p_sig) p_r2 = Some p_h2 /\ rq_status (h_req p_h2) = ST_PENDING.
Proof.
  split; [exact (proj2 (pending_live toy w_cfg mem mem_ops (fst w_ca1) z_id p_r1 w_at1 eq_refl))|].
  split; [exact (proj2 (pending_live toy w_cfg mem mem_ops (fst p_ca2) z_id p_r2 p_at2 eq_refl))|]. meets.
Qed.

(** ** C34: possession challenge *)
Theorem C34_start : forall E cfg i params r h, handle_challenge E cfg i (bs "possession") params r = Some h ->
  rq_status r = ST_BEFORE -> h_out h = Ok (NO_ERROR, []) ->
  exists c, credential_in E params c /\ trusted E cfg c /\
    rq_cs (h_req h) = Some (CState (bs "need-proof") (in_t2 i) 1 60
      [(bs "nonce", to_hex (rnd_nonce i)); (bs "issued-cert", to_hex (enc_tlv (cert_tlv E c)))]).
Proof. exact possession_start. Qed.
Print Assumptions C34_start.
Theorem C34_sound : forall E cfg1 i1 params1 r1 h1 cfg2 i2 params2 r2 h2 cs1 cs2, codec_laws E ->
  handle_challenge E cfg1 i1 (bs "possession") params1 r1 = Some h1 -> rq_status r1 = ST_BEFORE -> h_out h1 = Ok (NO_ERROR, []) ->
  rq_cs (h_req h1) = Some cs1 -> rq_status r2 = ST_CHALLENGE -> rq_cs r2 = Some cs2 -> cs_status cs2 = cs_status cs1 -> cs_secrets cs2 = cs_secrets cs1 ->
  handle_challenge E cfg2 i2 (bs "possession") params2 r2 = Some h2 -> h_out h2 = Ok (NO_ERROR, []) ->
  exists c proof, credential_in E params1 c /\ trusted E cfg1 c /\ pair_in params2 (bs "proof") proof /\
    o_verify E (public_key c) (MRaw (rnd_nonce i1)) proof = true /\ rq_status (h_req h2) = ST_PENDING.
Proof. exact possession_sound. Qed.
Print Assumptions C34_sound.
Example C34_case : handle_challenge toy (cf_chal w_cfg) (x_inputs (x_now + sec 10) 2) (bs "possession") p_start p_r1 = Some p_h1 /\
  rq_status p_r1 = ST_BEFORE /\ h_out p_h1 = Ok (NO_ERROR, []) /\ rq_status p_r2 = ST_CHALLENGE /\
  option_map cs_secrets (rq_cs p_r2) = option_map cs_secrets (rq_cs (h_req p_h1)) /\ option_map cs_status (rq_cs p_r2) = option_map cs_status (rq_cs (h_req p_h1)) /\
  handle_challenge toy (cf_chal w_cfg) (x_inputs (x_now + sec 20) 3) (bs "possession") (p_proof p_sig) p_r2 = Some p_h2 /\ h_out p_h2 = Ok (NO_ERROR, []).
Proof. meets. Qed.
(** A wrong proof ends the request, if the credential is a certificate with a usable key. *)
Theorem C34_wrong_partial : forall E cfg1 i1 params1 r1 h1 cfg2 i2 params2 r2 h2 cs1 cs2 c anchors, codec_laws E ->
  handle_challenge E cfg1 i1 (bs "possession") params1 r1 = Some h1 -> rq_status r1 = ST_BEFORE -> h_out h1 = Ok (NO_ERROR, []) ->
  rq_cs (h_req h1) = Some cs1 -> rq_status r2 = ST_CHALLENGE -> rq_cs r2 = Some cs2 -> cs_status cs2 = cs_status cs1 -> cs_secrets cs2 = cs_secrets cs1 ->
  handle_challenge E cfg2 i2 (bs "possession") params2 r2 = Some h2 ->
  (forall c', credential_in E params1 c' -> c' = c) -> cert_ok c = true -> o_pubkey_ok E (public_key c) = true -> cc_anchors cfg2 = Ok anchors -> params2 <> [] ->
  (forall proof, pair_in params2 (bs "proof") proof -> o_verify E (public_key c) (MRaw (rnd_nonce i1)) proof = false) ->
  exists code info, h_out h2 = Ok (code, info) /\ code <> NO_ERROR /\ rq_status (h_req h2) = ST_FAILURE.
Proof. exact possession_wrong. Qed.
Print Assumptions C34_wrong_partial.
Example C34_wrong_case : (forall c', credential_in toy p_start c' -> c' = x_cred) /\ cert_ok x_cred = true /\ o_pubkey_ok toy (public_key x_cred) = true /\
  (forall proof, pair_in (p_proof (bs "no signature")) (bs "proof") proof ->
     o_verify toy (public_key x_cred) (MRaw (rnd_nonce (x_inputs (x_now + sec 10) 2))) proof = false) /\
  handle_challenge toy (cf_chal w_cfg) (x_inputs (x_now + sec 20) 3) (bs "possession") (p_proof (bs "no signature")) p_r2 = Some p_h3 /\
  rq_status (h_req p_h3) = ST_FAILURE.
Proof. split; [exact p_credential|]. split; [meets|]. split; [meets|]. split; [exact p_wrong_proof|meets]. Qed.
(** A credential that is no certificate: a wrong proof changes nothing, the handler throws. *)
Theorem C34_wrong_refuted : exists g s i x id r cs params, ca_at toy g mem_ops s /\ names_request g id x /\ pending mem_ops s id = Some r /\
  rq_cs r = Some cs /\ cs_status cs = bs "need-proof" /\ opens toy (rq_key r) id x params /\ selects params (bs "possession") /\
  pair_in params (bs "proof") (bs "no signature") /\ on_interest toy g mem_ops s i x = ([], Exn) /\ step toy g mem_ops s (EvInterest i x) = Some (s, []).
Proof. exact wrong_proof_survives. Qed.
Print Assumptions C34_wrong_refuted.

(** ** C35: possession proofs do not expire *)
(** A proof one hour after the challenge announced a remaining time of 60 s. *)
Theorem C35_expiry_refuted : exists g s i x s' es id r cs c, ca_at toy g mem_ops s /\ step toy g mem_ops s (EvInterest i x) = Some (s', es) /\
  names_request g id x /\ pending mem_ops s id = Some r /\ rq_cs r = Some cs /\ cs_status cs = bs "need-proof" /\ cs_rtime cs = 60%Z /\
  in_t1 i = (cs_time cs + sec 3600)%Z /\ In (EIssue c) es.
Proof. exact late_proof. Qed.
Print Assumptions C35_expiry_refuted.

(** ** C43: the published profile *)
Theorem C43_stable : forall E g S (ops : store_ops S) s i s1 es d evs s2 h i2 es2 o2,
  on_get_profile E g (ca_prof s) i = (es, Ok d) -> step E g ops s (EvProfile i) = Some (s1, es) ->
  run E g ops s1 evs = Some (s2, h) -> no_restart evs -> reachable E g ops s ->
  on_get_profile E g (ca_prof s2) i2 = (es2, o2) -> o2 = Ok d.
Proof. exact profile_stable. Qed.
Print Assumptions C43_stable.
Theorem C43_discovery : forall E g S (ops : store_ops S) s i x es, reachable E g ops s -> addressed g VInfo (i_name x) ->
  on_interest E g ops s i x = (es, Ok tt) ->
  exists d m v, on_get_profile E g (ca_prof s) i = (removelast es, Ok d) /\ puts es = [m] /\ d_name d = profile_name g v /\ data_signed_by E d (cf_sk g) /\
    ca_prof (apply_effs ops es s) = Some d /\
    d_content m = name_wire (p_prefix (cfp g) ++ [gc (bs "CA"); gc (bs "INFO"); version_comp v]) /\ data_signed_by E m (cf_sk g) /\
    d_name m = p_prefix (cfp g) ++ [gc (bs "CA"); gc (bs "INFO"); Tlv T_Keyword (bs "metadata"); version_comp (in_mversion i); Tlv T_Segment (nni_enc 0)].
Proof. exact discovery_reply. Qed.
Print Assumptions C43_discovery.
Example C43_case : on_get_profile toy w_cfg (ca_prof w_ca0) (x_inputs x_now 1) = (snd f_ca1, Ok f_data) /\
  step toy w_cfg mem_ops w_ca0 (EvProfile (x_inputs x_now 1)) = Some f_ca1 /\ reachable toy w_cfg mem_ops w_ca0 /\
  addressed w_cfg VInfo (i_name f_disc) /\ no_restart [EvInterest (x_inputs x_now 2) f_disc; EvProfile (x_inputs x_now 3)] /\
  exists s2 h, run toy w_cfg mem_ops (fst f_ca1) [EvInterest (x_inputs x_now 2) f_disc; EvProfile (x_inputs x_now 3)] = Some (s2, h).
Proof.
  split; [meets|]. split; [meets|]. split; [exact (at_reach _ _ _ _ w_at0)|]. split; [eexists; vm_compute; reflexivity|]. split; [repeat constructor|].
  eexists _, _. vm_compute. reflexivity.
Qed.

(** ** C57: REVOKE requests *)
(** Admission: C15 with [rt := RT_REVOKE]; [cert_policy] then asks for the CA's signature on the certificate. *)
Theorem C57_admission : forall E g S (ops : store_ops S) s i x peer c, ca_at E g ops s ->
  addressed g VRevoke (i_name x) -> carries E RT_REVOKE x peer c ->
  forall s' es r, step E g ops s (EvInterest i x) = Some (s', es) -> In (EAdd r) es ->
  rq_cert r = c /\ rq_type r = RT_REVOKE /\ name_policy g (c_name c) /\ cert_signed_by E c (public_key (cf_cert g)).
Proof. exact revoke_admission. Qed.
Print Assumptions C57_admission.
Example C57_case : ca_at toy w_cfg mem_ops v_ca0 /\ suffix_limit_sane w_cfg /\ addressed w_cfg VRevoke (i_name v_interest) /\ carries toy RT_REVOKE v_interest x_peer w_cert /\
  admissible toy w_cfg (x_inputs (x_now + sec 40) 5) RT_REVOKE (id_for toy (ca_idkey v_ca0) (c_name w_cert)) v_interest x_peer w_cert /\
  step toy w_cfg mem_ops v_ca0 (EvInterest (x_inputs (x_now + sec 40) 5) v_interest) = Some v_ca1 /\ In (EAdd v_r1) (snd v_ca1).
Proof.
  split; [exact v_at0|]. split; [exact v_sane|]. split; [eexists; vm_compute; reflexivity|]. split; [exact (ad_params _ _ _ _ _ _ _ _ v_admissible)|].
  split; [exact v_admissible|]. split; [exact v_step1|left; reflexivity].
Qed.
(** Success is reported only after passing the challenge; it deletes the request and issues nothing. *)
Theorem C57_success_partial : forall E g S (ops : store_ops S) s i x es o id r, ca_at E g ops s -> names_request g id x -> pending ops s id = Some r ->
  rq_type r = RT_REVOKE -> on_interest E g ops s i x = (es, o) ->
  (forall c, ~ In (EIssue c) es) /\
  (forall r3, In (ECallback r3) es -> rq_status r3 = ST_SUCCESS -> 
    pending ops (apply_effs ops es s) id = None /\ signed_by E x (public_key (rq_cert r)) /\ rq_status r <> ST_BEFORE /\
    exists cs params ty d, rq_cs r = Some cs /\ opens E (rq_key r) id x params /\ selects params ty /\ passes E i params cs ty /\
      es = [EDelete id; EPut d; ECallback r3]).
Proof. exact revoke_outcome. Qed.
Print Assumptions C57_success_partial.
Example C57_success_case : ca_at toy w_cfg mem_ops (fst v_ca2) /\ names_request w_cfg v_id (fst v_chal2) /\ pending mem_ops (fst v_ca2) v_id = Some v_r2 /\
  rq_type v_r2 = RT_REVOKE /\ on_interest toy w_cfg mem_ops (fst v_ca2) (x_inputs (x_now + sec 60) 7) (fst v_chal2) = (snd v_ca3, Ok tt) /\
  In (ECallback v_done) (snd v_ca3) /\ rq_status v_done = ST_SUCCESS.
Proof.
  split; [exact v_at2|]. split; [exists 8; eexists; split; [vm_compute; reflexivity|reflexivity]|]. split; [meets|]. split; [meets|]. split; [meets|].
  split; [right; right; left; reflexivity|reflexivity].
Qed.
(** Nothing is recorded: after a successful revocation the CA is in the state it was in before. *)
Theorem C57_recorded_refuted : exists g s evs h r ev es, ca_at toy g mem_ops s /\ run toy g mem_ops s evs = Some (s, h) /\ In (ev, es) h /\ In (ECallback r) es /\
  rq_type r = RT_REVOKE /\ rq_status r = ST_SUCCESS.
Proof. exact not_recorded. Qed.
Print Assumptions C57_recorded_refuted.

(** ** C61: dispatch *)
Theorem C61_dispatch : forall g n v, In v (dispatch g n) <-> addressed g v n.
Proof. exact dispatch_iff. Qed.
Print Assumptions C61_dispatch.
Theorem C61_one_handler : forall g n v, addressed g v n -> dispatch g n = [v].
Proof. exact dispatch_addressed. Qed.
Print Assumptions C61_one_handler.
Theorem C61_no_handler : forall g n, (forall v, ~ addressed g v n) -> dispatch g n = [].
Proof. exact dispatch_none. Qed.
Print Assumptions C61_no_handler.
Example C61_case : addressed x_cfg VProbe (i_name z_probe) /\ dispatch x_cfg (i_name z_probe) = [VProbe] /\
  dispatch x_cfg (x_prefix ++ [gc (bs "CA"); gc (bs "NEWS")]) = [].
Proof. split; [eexists; vm_compute; reflexivity|meets]. Qed.

(** ** C62: the email address check *)
(** Exactly what it accepts: any character but a line end in place of the dot. *)
Theorem C62_exact_partial : forall s, is_valid_email s = true <->
  exists local domain c rest, s = local ++ bs "@" ++ domain ++ [c] ++ rest /\
    local <> [] /\ Forall (address_char (bs "_.+-")) local /\ domain <> [] /\ Forall (address_char (bs "-")) domain /\
    c <> x0a /\ c <> x0d /\ rest <> [] /\ Forall (address_char (bs "-.")) rest.
Proof. exact is_valid_email_iff. Qed.
Print Assumptions C62_exact_partial.
Theorem C62_accepts : forall s, well_formed_address s -> is_valid_email s = true.
Proof. exact well_formed_accepted. Qed.
Print Assumptions C62_accepts.
Example C62_case : well_formed_address (bs "joe@cs.ucla.edu") /\ is_valid_email (bs "joe@cs.ucla.edu") = true /\ is_valid_email (bs "joe.edu") = false.
Proof. split; [exact u_address|meets]. Qed.
Theorem C62_dot_refuted : exists s, is_valid_email s = true /\ ~ In x2e s /\ ~ well_formed_address s.
Proof. exact dotless_accepted. Qed.
Print Assumptions C62_dot_refuted.

(** ** C63: the email script's arguments *)
Theorem C63_args_partial : forall E script addr ws code r, codec_laws E -> script <> [] -> ~ In x22 script -> ~ In x20 script -> ~ In x22 addr ->
  gen_code ws = Ok code ->
  build_args (email_command E script addr code r) = Ok [script; addr; code; o_to_uri E (rq_prefix r); o_to_uri E (c_name (rq_cert r))].
Proof. exact email_args. Qed.
Print Assumptions C63_args_partial.
Example C63_case : codec_laws toy /\ bs "send.sh" <> [] /\ ~ In x22 (bs "send.sh") /\ ~ In x20 (bs "send.sh") /\ ~ In x22 w_addr /\ gen_code [12345680] = Ok x_code.
Proof. split; [meets|]. split; [meets|]. repeat (split; [cbn; intros H; repeat (destruct H as [H|H]; [discriminate|]); exact H|]). meets. Qed.
(** An address with quotes puts a code of the requester's choice in the place of the CA's. *)
Theorem C63_args_refuted : exists g s i x es o cmd args, ca_at toy g mem_ops s /\ on_interest toy g mem_ops s i x = (es, o) /\ In (EEmail cmd) es /\
  cc_script (cf_chal g) = bs "send.sh" /\ build_args cmd = Ok args /\ length args = 6%nat /\
  (* The second argument, the code for the script, is chosen by the requester. *)
  nth_error args 2 = Some (bs "000000").
Proof. exact injected_argument. Qed.
Print Assumptions C63_args_refuted.
