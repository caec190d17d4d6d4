(** C114: revocation with the library. *)
From Verif Require Import RevokeWitness.
Local Open Scope N_scope.

(** ** C114: the holder of a certificate can revoke it *)
(** Only genNewInterest tells a Request its key.  Whatever else is called, with whatever packets, no CHALLENGE Interest can be made. *)
Theorem C114_refuted : forall E p rt ecdh s ri m x s', without_new E p rt ecdh s -> gen_challenge E s ri m <> (Ok x, s').
Proof. exact no_key_no_challenge. Qed.
Print Assumptions C114_refuted.
(** Such a Request, after the CA has accepted the revocation and the Request the reply. *)
Example C114_refuted_case : revoking toy w_cfg mem_ops v_ca0 rv_req0 (x_rin x_now 2) (x_inputs (x_now + sec 40) 5) w_cert = Some (fst rv_ca1, snd rv_ca1, rv_req2, p_challenges (cfp w_cfg)) /\
  without_new toy x_profile RT_REVOKE (bs "alice ephemeral") rv_req2 /\ pending mem_ops (fst rv_ca1) rv_id <> None /\ fst (select_challenge rv_req2 (bs "pin")) = Ok [].
Proof. exact rv_stuck. Qed.

(** What the CA issued can be revoked as long as the CA's own certificate is valid, and the sizes allow it. *)
Theorem C114_issued : forall E g S (ops : store_ops S) tr st s c i, env_laws E -> public_key (cf_cert g) = o_pub E (cf_sk g) -> wf_name (cf_keyloc g) -> ca_history E g ops (tr ++ [st]) s ->
  In (EIssue c) (h_effs st) -> within (in_t1 i) (c_validity (cf_cert g)) -> fits (enc_tlv (cert_tlv E c)) -> blen (name_wire (c_name c)) < 2 ^ 31 -> revocable E g i c.
Proof. exact issued_revocable. Qed.
Print Assumptions C114_issued.
Example C114_issued_case : env_laws toy /\ public_key (cf_cert w_cfg) = o_pub toy (cf_sk w_cfg) /\ wf_name (cf_keyloc w_cfg) /\ ca_history toy w_cfg mem_ops ([w_e1; w_e2] ++ [w_e3]) (fst w_ca3) /\
  In (EIssue w_cert) (h_effs w_e3) /\ within (in_t1 (x_inputs (x_now + sec 40) 5)) (c_validity (cf_cert w_cfg)) /\ fits (enc_tlv (cert_tlv toy w_cert)) /\ blen (name_wire (c_name w_cert)) < 2 ^ 31.
Proof. split; [exact toy_laws|]. split; [reflexivity|]. split; [apply rv_keyloc|]. split; [exact w_h3|]. split; [left; reflexivity|]. split; [exact (rv_ca _ _ _ _ rv_revocable)|]. meets. Qed.

(** With a Request on which genNewInterest was called for the certificate's key: the CA accepts the REVOKE Interest and lists its challenges, *)
Theorem C114_opens_partial : forall E g S (ops : store_ops S) ctype life ca0 s0 rj i c sk, env_laws E -> config_fits g -> ca_at E g ops ca0 -> revocable E g i c -> prepared E g s0 c sk ->
  let id := id_for E (ca_idkey ca0) (c_name c) in pending ops ca0 id = None -> length (ri_salt0 rj) = 32%nat ->
  exists ca es s, revoking E g ops ca0 s0 rj i c = Some (ca, es, s, p_challenges (cfp g)) /\ revocation E g ops ctype life id sk c None ca s.
Proof. exact revoke_open. Qed.
Print Assumptions C114_opens_partial.
Example C114_opens_case : env_laws toy /\ config_fits w_cfg /\ ca_at toy w_cfg mem_ops v_ca0 /\ revocable toy w_cfg (x_inputs (x_now + sec 40) 5) w_cert /\ prepared toy w_cfg rv_req1 w_cert x_sk /\
  pending mem_ops v_ca0 (id_for toy (ca_idkey v_ca0) (c_name w_cert)) = None.
Proof. exact (conj toy_laws (conj rv_fits (conj v_at0 (conj rv_revocable (conj rv_prepared rv_new))))). Qed.
(** the challenge begins and goes on as for a new certificate, *)
Theorem C114_starts_partial : forall E g S (ops : store_ops S) ctype life id sk c ca s ri rj i params code, env_laws E -> config_fits g -> code_life ctype life ->
  revocation E g ops ctype life id sk c None ca s -> begins_with ctype params -> gen_code (in_words i) = Ok code -> in_script_ok i = true -> (0 <= in_t2 i)%Z ->
  be_enc 8 (ri_iv ri) <> rnd_iv i -> clock_ok rj ->
  exists ca' es s', round E g ops ca s ri rj i ctype params = Some (ca', es, s') /\ revocation E g ops ctype life id sk c (Some (code, 0%nat, in_t2 i)) ca' s' /\
    rs_status s' = ST_CHALLENGE /\ rs_cstatus s' = bs "need-code" /\ rs_tries s' = 3%Z /\ rs_fresh s' = (ri_now rj + sec life)%Z.
Proof. exact revoke_start. Qed.
Print Assumptions C114_starts_partial.
Theorem C114_wrong_partial : forall E g S (ops : store_ops S) ctype life id sk c code k t ca s ri rj i given, env_laws E -> config_fits g -> code_life ctype life ->
  revocation E g ops ctype life id sk c (Some (code, k, t)) ca s -> given <> code -> blen given < 2 ^ 30 -> (t <= in_t1 i < t + sec life - 1000 /\ 0 <= in_t2 i)%Z -> clock_ok rj -> (k < 2)%nat ->
  exists ca' es s', round E g ops ca s ri rj i ctype [(bs "code", given)] = Some (ca', es, s') /\
    revocation E g ops ctype life id sk c (Some (code, Datatypes.S k, in_t2 i)) ca' s' /\ rs_status s' = ST_CHALLENGE /\ rs_cstatus s' = bs "wrong-code" /\ rs_tries s' = (2 - Z.of_nat k)%Z.
Proof. exact revoke_wrong. Qed.
Print Assumptions C114_wrong_partial.
(** and the right code ends it with SUCCESS on both sides and no certificate.  But the CA keeps no trace of it, and the server serves the certificates it
    served before. *)
Theorem C114_ends_partial : forall E g S (ops : store_ops S) ctype life id sk c code k t tr ca s ri rj i, env_laws E -> config_fits g -> code_life ctype life ->
  ca_history E g ops tr ca -> revocation E g ops ctype life id sk c (Some (code, k, t)) ca s -> (t <= in_t1 i < t + sec life - 1000)%Z -> clock_ok rj ->
  exists ca' es s' x, round E g ops ca s ri rj i ctype [(bs "code", code)] = Some (ca', es, s') /\ ca_history E g ops (tr ++ [HStep ca (EvInterest i x) es ca']) ca' /\
    rs_status s' = ST_SUCCESS /\ rs_issued s' = rs_issued s /\ pending ops ca' id = None /\ (forall c', ~ In (EIssue c') es) /\
    server_cache (seen (tr ++ [HStep ca (EvInterest i x) es ca'])) = server_cache (seen tr).
Proof. exact revoke_ends. Qed.
Print Assumptions C114_ends_partial.
(** One wrong code has been tried. *)
Example C114_case : (exists ca s, revocation toy w_cfg mem_ops (bs "pin") 3600 rv_id x_sk w_cert None ca s) /\
  (exists tr ca s, ca_history toy w_cfg mem_ops tr ca /\ revocation toy w_cfg mem_ops (bs "pin") 3600 rv_id x_sk w_cert (Some (x_code, 1%nat, x_now + sec 60)%Z) ca s) /\
  (x_now + sec 60 <= in_t1 (x_inputs (x_now + sec 70) 8) < x_now + sec 60 + sec 3600 - 1000)%Z /\ clock_ok (x_rin x_now 4) /\ bs "111111" <> x_code.
Proof. split; [exact (rv_open (bs "pin") 3600)|]. split; [exact rv_history|]. split; [meets|]. split; [exact v_clock|meets]. Qed.
