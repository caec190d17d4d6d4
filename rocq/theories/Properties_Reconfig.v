(** C120: a CA that is started again with another configuration.  Vocabulary in Spec_Reconfig.v.
    [reconfigured E ops tr g s]: [tr] is what a CA did from its first start to state [s], with the configuration each
    event was handled with; [g] is in force in the end.  Configurations change at restarts, the
    trust anchors of the possession challenge and the CA's certificate and key at any time, the prefix never. *)
From Verif Require Import ReconfigWitness.
Local Open Scope N_scope.

(** A certificate is issued for a request accepted under some configuration [g0], whose challenge was started under some
    configuration [g1] and is passed under the present one: it is signed with the present key, and its name and validity
    period are what [g0] allowed. *)
Theorem C120_issued_partial : forall E S (ops : store_ops S) tr g st s c, reconfigured E ops (tr ++ [(g, st)]) g s -> In (EIssue c) (h_effs st) ->
  exists id key c0 a1 g0 new a2 g1 start a3 i0 x0 i1 params1 ty1 r cs em i params ty nb na,
    tr = a1 ++ (g0, new) :: a2 ++ (g1, start) :: a3 /\
    accepts E g0 id RT_NEW new key c0 /\ handles new i0 x0 /\ no_add_in id (a2 ++ (g1, start) :: a3) /\
    asks E g1 id key c0 start i1 params1 ty1 /\ starts E (cf_chal g1) i1 params1 r ty1 cs em /\ rq_cert r = c0 /\ (forall cmd, em = Some cmd -> In (EEmail cmd) (h_effs start)) /\
    asks E g id key c0 st i params ty /\ earned E (cf_chal g1) i1 params1 ty1 params ty /\
    certifies E g c0 c /\ name_policy g0 (c_name c) /\ c_validity c = Some (nb, na) /\ period_policy g0 (in_t2 i0) nb na.
Proof. exact issued_c. Qed.
Print Assumptions C120_issued_partial.
Example C120_issued_case : reconfigured toy (db_ops toy) (rc_before ++ [(rc_cfg, rc_e1)]) rc_cfg (fst rc_ca1) /\ In (EIssue rc_issued) (h_effs rc_e1) /\
  map fst rc_before = [x_cfg; x_cfg; x_cfg; rc_cfg] /\ cf_sk rc_cfg <> cf_sk x_cfg.
Proof. split; [exact rc_hist|]. split; [exact rc_in|]. split; [reflexivity|discriminate]. Qed.
(** They need not be what the present configuration allows: a certificate whose name is too long, whose validity period is too
    long from its start on, and whose challenge is not offered. *)
Theorem C120_policy_refuted : exists tr g st s c nb na, reconfigured toy (db_ops toy) (tr ++ [(g, st)]) g s /\ In (EIssue c) (h_effs st) /\ c_validity c = Some (nb, na) /\
  ~ name_policy g (c_name c) /\ (forall now, (now <= nb)%Z -> ~ period_policy g now nb na) /\ ~ In (bs "pin") (p_challenges (cfp g)).
Proof. exact old_policy. Qed.
Print Assumptions C120_policy_refuted.
(** Nor need the credential of a possession challenge still be trusted when the proof arrives: trust is examined when the challenge
    is started, with the file as it is then. *)
Theorem C120_anchors_refuted : exists tr start g1 g st s c id key c0 i0 params0 cred i params, reconfigured toy mem_ops (tr ++ [(g1, start)] ++ [(g, st)]) g s /\ In (EIssue c) (h_effs st) /\
  asks toy g1 id key c0 start i0 params0 (bs "possession") /\ credential_in toy params0 cred /\ asks toy g id key c0 st i params (bs "possession") /\ ~ trusted toy (cf_chal g) cred.
Proof. exact old_anchor. Qed.
Print Assumptions C120_anchors_refuted.

(** After a certificate that was answered, no other is issued for the request ID until a NEW Interest is accepted under it, *)
Theorem C120_once : forall E S (ops : store_ops S) a g1 st1 b g2 st2 c g s id i1 x1 i2 x2 c1 c2, reconfigured E ops (a ++ (g1, st1) :: b ++ (g2, st2) :: c) g s ->
  handles st1 i1 x1 -> names_request g1 id x1 -> In (EIssue c1) (h_effs st1) -> answered st1 -> no_add_in id b ->
  handles st2 i2 x2 -> names_request g2 id x2 -> ~ In (EIssue c2) (h_effs st2).
Proof. exact one_certificate_c. Qed.
Print Assumptions C120_once.
Example C120_once_case : reconfigured toy (db_ops toy) (rc_before ++ (rc_cfg, rc_e1) :: [(x_cfg, rc_e2)] ++ (x_cfg, rc_e3) :: []) x_cfg (fst rc_ca3) /\ In (EIssue rc_issued) (h_effs rc_e1) /\
  handles rc_e1 rc_i (the_interest x_chal3) /\ names_request rc_cfg z_id (the_interest x_chal3) /\ answered rc_e1 /\ no_add_in z_id [(x_cfg, rc_e2)] /\
  handles rc_e3 rc_i3 (the_interest x_chal3) /\ answered rc_e3.
Proof. split; [exact rc_hist3|]. split; [exact rc_in|exact rc_once]. Qed.
(** at most three codes are compared with a secret, *)
Theorem C120_guesses : forall E S (ops : store_ops S) tr0 g s tr g2 s2 id n, reconfigured E ops tr0 g s -> csteps E ops g s tr g2 s2 -> no_add_in id tr ->
  tally (fun gs => answered (snd gs) /\ exists given, compares E (fst gs) ops id (snd gs) given) tr n -> (n <= 3)%nat.
Proof. exact at_most_three_c. Qed.
Print Assumptions C120_guesses.
Example C120_guesses_case : reconfigured toy (db_ops toy) [(x_cfg, x_e1)] x_cfg (fst x_ca1) /\ csteps toy (db_ops toy) x_cfg (fst x_ca1) rc_tail rc_cfg (fst rc_ca1) /\ no_add_in z_id rc_tail /\
  tally (fun gs => answered (snd gs) /\ exists given, compares toy (fst gs) (db_ops toy) z_id (snd gs) given) rc_tail 2.
Proof. split; [exact rc_hist1|]. split; [exact rc_tail_steps|]. split; [exact rc_no_add|exact rc_tally]. Qed.
(** and the counters of the initialization vectors of the replies for a request grow. *)
Theorem C120_ivs : forall E S (ops : store_ops S) a g1 st1 b g2 st2 c g s id iv1 iv2, reconfigured E ops (a ++ (g1, st1) :: b ++ (g2, st2) :: c) g s ->
  no_add_in id b -> reply_iv g1 id st1 iv1 -> reply_iv g2 id st2 iv2 -> iv_prefix iv1 = iv_prefix iv2 /\ iv_counter iv1 < iv_counter iv2.
Proof. exact distinct_ivs_c. Qed.
Print Assumptions C120_ivs.
Example C120_ivs_case : reconfigured toy (db_ops toy) ([(x_cfg, x_e1); (x_cfg, x_e2)] ++ (x_cfg, x_e3) :: [(rc_cfg, rc_e0)] ++ (rc_cfg, rc_e1) :: []) rc_cfg (fst rc_ca1) /\
  reply_iv x_cfg z_id x_e3 (rc_iv (snd x_ca3)) /\ reply_iv rc_cfg z_id rc_e1 (rc_iv (snd rc_ca1)) /\ no_add_in z_id [(rc_cfg, rc_e0)].
Proof. split; [exact rc_hist|exact rc_ivs]. Qed.

(** The profile that is served describes the present configuration; its certificate and signature are those the CA had at an event [st] since
    it was started the last time. *)
Theorem C120_profile : forall E S (ops : store_ops S) tr g s d, reconfigured E ops tr g s -> ca_prof s = Some d ->
  exists a g1 st b, tr = a ++ (g1, st) :: b /\ Forall (fun e => ~ restarts (h_ev (snd e))) b /\ cf g1 = cf g /\
  (exists v, d_name d = profile_name g v) /\ data_signed_by E d (cf_sk g1) /\
  (sig_laws E -> public_key (cf_cert g1) = o_pub E (cf_sk g1) -> fits (p_info (cfp g)) -> Forall fits (p_probe_keys (cfp g)) ->
   (forall k, c_keyloc (cf_cert g1) = Some k -> fits (bs "Issued by " ++ o_to_uri E k)) ->
   (- 2 ^ 63 <= p_maxvalid (cfp g) < 2 ^ 63)%Z -> wf_cert (cf_cert g1) -> cert_ok (cf_cert g1) = true -> fits (enc_tlv (cert_tlv E (cf_cert g1))) ->
   exists p, on_profile E d = Ok p /\ p_prefix p = p_prefix (cfp g) /\ p_cert p = Some (cf_cert g1) /\ p_maxvalid p = p_maxvalid (cfp g) /\ p_probe_keys p = p_probe_keys (cfp g)).
Proof. exact profile_c. Qed.
Print Assumptions C120_profile.
Example C120_profile_case : exists tr d d0, reconfigured toy (db_ops toy) tr rc_cfg (fst rc_p3) /\ ca_prof (fst rc_p3) = Some d /\ ca_prof (fst rc_p1) = Some d0 /\ d_content d0 <> d_content d /\
  public_key (cf_cert rc_cfg) = o_pub toy (cf_sk rc_cfg) /\ fits (p_info (cfp rc_cfg)) /\ Forall fits (p_probe_keys (cfp rc_cfg)) /\
  (forall k, c_keyloc (cf_cert rc_cfg) = Some k -> fits (bs "Issued by " ++ o_to_uri toy k)) /\ wf_cert (cf_cert rc_cfg) /\ cert_ok (cf_cert rc_cfg) = true /\ fits (enc_tlv (cert_tlv toy (cf_cert rc_cfg))).
Proof. exact rc_profile. Qed.
