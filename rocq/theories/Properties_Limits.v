(** Limits of packets, requests and certificates: theorems C84-C87.  Vocabulary in Spec_Limits.v. *)
From Verif Require Import LimitsWitness.
Local Open Scope N_scope.

(** ** C84: replies fit into a packet *)
(** No: every CA, in every state, answers some Interest within the limit of 8800 bytes, without any signature, with
    a packet beyond it.  (ndn-cxx throws for such a packet when it is sent.) *)
Theorem C84_refuted : forall E g S (ops : store_ops S) s i, ca_at E g ops s -> blen (enc_tlvs (p_prefix (cfp g))) <= 8000 ->
  exists x d, interest_size x <= packet_limit /\ i_sig x = None /\ step E g ops s (EvInterest i x) = Some (s, [EPut d]) /\ packet_limit < data_size_above d.
Proof. exact oversized. Qed.
Print Assumptions C84_refuted.
Example C84_case : ca_at toy x_cfg (db_ops toy) (fst x_ca2) /\ blen (enc_tlvs (p_prefix (cfp x_cfg))) <= 8000.
Proof. split; [exact x_at2|vm_compute; discriminate]. Qed.
(** But what the CA adds to the name and the signature is small, except in PROBE replies: 400 bytes and what its key with
    the list of challenges, its prefix, or the names of a requested certificate and of the forwarding hint need. *)
Theorem C84_content_partial : forall E g S (ops : store_ops S) tr st s i x d L, aes_laws E -> hash_laws E -> (forall k, p_maxsuffix (cfp g) = Some k -> k < 2 ^ 64) ->
  ca_history E g ops (tr ++ [st]) s -> handles st i x -> In (EPut d) (h_effs st) -> fits (d_content d) -> ~ to_verb (p_prefix (cfp g)) (bs "PROBE") x ->
  room_needed E g (asked_for ops (h_pre st)) L -> blen (d_content d) <= L + 400.
Proof. exact content_size. Qed.
Print Assumptions C84_content_partial.
Example C84_content_case : (ca_history toy x_cfg (db_ops toy) ([x_e1; x_e2] ++ [x_e3]) (fst x_ca3) /\ (forall k, p_maxsuffix (cfp x_cfg) = Some k -> k < 2 ^ 64) /\
  handles x_e3 (x_inputs (x_now + sec 20) 3) (the_interest x_chal2) /\ exists d, In (EPut d) (h_effs x_e3) /\ fits (d_content d)) /\
  room_needed toy x_cfg (asked_for (db_ops toy) (fst x_ca2)) 200 /\ ~ to_verb (p_prefix (cfp x_cfg)) (bs "PROBE") (the_interest x_chal2) /\ h_pre x_e3 = fst x_ca2.
Proof. exact (conj WireWitness.j_replies l_room). Qed.

(** For PROBE it is what the names and redirections need that the policies yield. *)
Theorem C84_probe : forall E g S (ops : store_ops S) s i x es o d L, addressed g VProbe (i_name x) -> on_interest E g ops s i x = (es, o) -> In (EPut d) es -> probe_room E g i x L -> blen (d_content d) <= L + 400.
Proof. exact probe_content. Qed.
Print Assumptions C84_probe.
Example C84_probe_case : addressed y_cfg VProbe (i_name (y_probe y_params)) /\ probe_room toy y_cfg y_inputs (y_probe y_params) 1000 /\ (exists d, fst (on_interest toy y_cfg mem_ops (fst w_ca1) y_inputs (y_probe y_params)) = [EPut d]).
Proof. exact l_probe. Qed.

(** ** C85: a requester whose reply was lost can repeat the message *)
(** The start of a pin challenge: the stored request stays as it is, but the handler throws. *)
Theorem C85_pin_partial : forall E g S (ops : store_ops S) s i x id r cs params, ca_at E g ops s -> names_request g id x -> pending ops s id = Some r -> rq_cs r = Some cs -> wants_code cs ->
  signed_by E x (public_key (rq_cert r)) -> acceptable E r x params -> starts_over params (bs "pin") -> on_interest E g ops s i x = ([], Exn).
Proof. exact pin_again. Qed.
Print Assumptions C85_pin_partial.
Example C85_pin_case : ca_at toy w_cfg mem_ops (fst n_ca2) /\ names_request w_cfg z_id (fst l_pin2) /\ pending mem_ops (fst n_ca2) z_id = Some l_r3 /\ rq_cs l_r3 = Some l_cs3 /\ wants_code l_cs3 /\
  signed_by toy (fst l_pin2) (public_key (rq_cert l_r3)) /\ acceptable toy l_r3 (fst l_pin2) l_pin_params /\ starts_over l_pin_params (bs "pin").
Proof. exact l_pin. Qed.
(** The start of an email challenge counts as a wrong code: it costs a try, the last one the request. *)
Theorem C85_email_refuted : forall E g S (ops : store_ops S) s i x id r cs params t code, ca_at E g ops s -> names_request g id x -> pending ops s id = Some r -> rq_cs r = Some cs -> wants_code cs ->
  signed_by E x (public_key (rq_cert r)) -> acceptable E r x params -> starts_over params (bs "email") -> get T_ParameterValue params = Some t -> (in_t1 i - cs_time cs < sec 300)%Z ->
  sec_get (bs "code") (cs_secrets cs) = Some code -> t_val t <> code -> exists s' es, step E g ops s (EvInterest i x) = Some (s', es) /\
    (1 < cs_tries cs /\ (exists r' cs', pending ops s' id = Some r' /\ rq_cs r' = Some cs' /\ cs_tries cs' = cs_tries cs - 1) \/ cs_tries cs = 1 /\ pending ops s' id = None).
Proof. exact email_again. Qed.
Print Assumptions C85_email_refuted.
Example C85_email_case : ca_at toy w_cfg mem_ops (fst w_ca2) /\ names_request w_cfg z_id (fst l_mail2) /\ pending mem_ops (fst w_ca2) z_id = Some l_r2 /\ rq_cs l_r2 = Some l_cs2 /\ wants_code l_cs2 /\
  signed_by toy (fst l_mail2) (public_key (rq_cert l_r2)) /\ acceptable toy l_r2 (fst l_mail2) l_mail_params /\ starts_over l_mail_params (bs "email") /\
  get T_ParameterValue l_mail_params = Some (Tlv T_ParameterValue w_addr) /\ (in_t1 (x_inputs (x_now + sec 20) 3) - cs_time l_cs2 < sec 300)%Z /\
  sec_get (bs "code") (cs_secrets l_cs2) = Some x_code /\ w_addr <> x_code.
Proof. exact l_email. Qed.
(** If the reply with the name of the issued certificate is lost, every further message is answered with an error. *)
Theorem C85_last_refuted : forall E g S (ops : store_ops S) s i x id r cs params ty code, aes_laws E -> ca_at E g ops s -> names_request g id x -> pending ops s id = Some r -> rq_cs r = Some cs -> rq_type r = RT_NEW ->
  signed_by E x (public_key (rq_cert r)) -> acceptable E r x params -> selects params ty -> guesses i params cs ty code -> sec_get (bs "code") (cs_secrets cs) = Some code ->
  blen (name_wire (c_name (rq_cert r))) < 2 ^ 31 -> blen (name_wire (p_fwd (cfp g))) < 2 ^ 32 ->
  exists s' es c, step E g ops s (EvInterest i x) = Some (s', es) /\ In (EIssue c) es /\
    forall i' x', names_request g id x' -> exists d, step E g ops s' (EvInterest i' x') = Some (s', [EPut d]) /\ error_reply E g x' (4 (* invalid parameter *)) d.
Proof. exact last_lost. Qed.
Print Assumptions C85_last_refuted.
(** Hypotheses met: C64_case (Properties_Trace.v). *)

(** ** C86: a request that is not pursued expires *)
(** Only when the requester comes back: a code presented too late ends the request. *)
Theorem C86_late_partial : forall E g S (ops : store_ops S) s i x id r cs params ty life t, ca_at E g ops s -> names_request g id x -> pending ops s id = Some r -> rq_cs r = Some cs ->
  signed_by E x (public_key (rq_cert r)) -> acceptable E r x params -> selects params ty -> code_life ty life -> wants_code cs -> get T_ParameterValue params = Some t ->
  (sec life <= in_t1 i - cs_time cs)%Z ->
  exists s' d, step E g ops s (EvInterest i x) = Some (s', [EDelete id; EPut d]) /\ error_reply E g x (8 (* out of time *)) d /\ pending ops s' id = None.
Proof. exact late_code. Qed.
Print Assumptions C86_late_partial.
Example C86_late_case : ca_at toy w_cfg mem_ops (fst n_ca2) /\ names_request w_cfg z_id (fst l_late) /\ pending mem_ops (fst n_ca2) z_id = Some l_r3 /\ rq_cs l_r3 = Some l_cs3 /\
  signed_by toy (fst l_late) (public_key (rq_cert l_r3)) /\ acceptable toy l_r3 (fst l_late) l_code /\ selects l_code (bs "pin") /\ code_life (bs "pin") 3600 /\ wants_code l_cs3 /\
  get T_ParameterValue l_code = Some (Tlv T_ParameterValue x_code) /\ (sec 3600 <= in_t1 (x_inputs (x_now + sec 4000) 3) - cs_time l_cs3)%Z.
Proof. exact l_expired. Qed.
(** Otherwise it stays, whatever else happens and however much time passes. *)
Theorem C86_stays_refuted : forall E g S (ops : store_ops S) s s' id r, ca_at E g ops s -> pending ops s id = Some r -> quiet E g ops id (public_key (rq_cert r)) s s' ->
  pending ops s' id = Some r.
Proof. exact abandoned. Qed.
Print Assumptions C86_stays_refuted.
Example C86_case : ca_at toy x_cfg (db_ops toy) (fst x_ca2) /\ pending (db_ops toy) (fst x_ca2) z_id = Some x_r2 /\
  quiet toy x_cfg (db_ops toy) z_id (public_key (rq_cert x_r2)) (fst x_ca2) (fst l_ca3).
Proof. exact l_quiet. Qed.

(** ** C87: issued certificates chain to the CA's certificate *)
(** The signature verifies with the CA's certificate, and the CA's certificate was valid when the request was accepted. *)
Theorem C87_chains_partial : forall E g S (ops : store_ops S) tr st s c, sig_laws E -> public_key (cf_cert g) = o_pub E (cf_sk g) -> ca_history E g ops (tr ++ [st]) s -> In (EIssue c) (h_effs st) ->
  cert_signed_by E c (public_key (cf_cert g)) /\ c_keyloc c = Some (cf_keyloc g) /\
  exists new i x, In new tr /\ handles new i x /\ addressed g VNew (i_name x) /\ within (in_t1 i) (c_validity (cf_cert g)).
Proof. exact chains. Qed.
Print Assumptions C87_chains_partial.
Example C87_case : sig_laws toy /\ public_key (cf_cert x_cfg) = o_pub toy (cf_sk x_cfg) /\ ca_history toy x_cfg (db_ops toy) ([x_e1; x_e2; x_e3] ++ [x_e4]) (fst x_ca4) /\ In (EIssue x_cert) (h_effs x_e4).
Proof. split; [exact (laws_sig toy toy_laws)|]. split; [reflexivity|]. split; [exact x_h4|left; reflexivity]. Qed.
(** It may have expired when the certificate is issued, and expires before the issued one. *)
Theorem C87_outlives_refuted : exists g tr st s c i x nb na nb' na', public_key (cf_cert g) = o_pub toy (cf_sk g) /\ ca_history toy g mem_ops (tr ++ [st]) s /\ handles st i x /\ In (EIssue c) (h_effs st) /\
  c_validity (cf_cert g) = Some (nb, na) /\ (na < in_t1 i)%Z /\ c_validity c = Some (nb', na') /\ (na < na')%Z.
Proof. exact k_outlives. Qed.
Print Assumptions C87_outlives_refuted.
