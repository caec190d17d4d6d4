(** Revocation after a change of the CA's configuration.  [issued_under] is in Spec_ReconfigRevoke.v. *)
From Verif Require Import ReconfigRevokeWitness.
Local Open Scope N_scope.

(** ** C122 What the CA issued stays revocable when its configuration changes *)
(** A CA with any history of configurations answers NEW and REVOKE with an error exactly in the listed cases, judged by the configuration now in force. *)
Theorem C122_refused : forall E S (ops : store_ops S) tr g s i rt x code text, reconfigured E ops tr g s -> suffix_limit_sane g -> rt = RT_NEW \/ rt = RT_REVOKE ->
  addressed g (verb_of rt) (i_name x) ->
  (exists d, step E g ops s (EvInterest i x) = Some (s, [EPut d]) /\ told_error E g x code text d) <->
  refused E g i rt (ca_idkey s) (fun id => pending ops s id <> None) x code text.
Proof. exact refused_reconfigured. Qed.
Print Assumptions C122_refused.
(** The configuration in force is not the first one, and the Interest is refused under it. *)
Example C122_refused_case : reconfigured toy (db_ops toy) (rc_before ++ [(rc_cfg, rc_e1)]) rc_cfg (fst rc_ca1) /\ suffix_limit_sane rc_cfg /\ addressed rc_cfg (verb_of RT_REVOKE) (i_name rk_x) /\
  refused toy rc_cfg rk_i RT_REVOKE (ca_idkey (fst rc_ca1)) (fun id => pending (db_ops toy) (fst rc_ca1) id <> None) rk_x 5 (bs "An invalid certificate name is being requested.").
Proof.
  split; [exact rc_hist|]. split; [exact (proj1 rk_sane)|]. split; [exact (proj2 rk_addressed)|]. exact (rw_name _ _ _ _ _ _ _ rk_peer rc_issued (proj2 rk_readable) rk_outside).
Qed.

(** A certificate the CA issued under an earlier configuration with the key it has now, whose name the limits now in force allow, meets the conditions of C114 for a revocation. *)
Theorem C122_issued_partial : forall E S (ops : store_ops S) tr g s g1 c i, env_laws E -> reconfigured E ops tr g s -> issued_under tr g1 c ->
  public_key (cf_cert g) = o_pub E (cf_sk g1) -> wf_name (cf_keyloc g1) -> name_policy g (c_name c) -> within (in_t1 i) (c_validity (cf_cert g)) ->
  fits (enc_tlv (cert_tlv E c)) -> blen (name_wire (c_name c)) < 2 ^ 31 ->
  revocable E g i c.
Proof. exact issued_still_revocable. Qed.
Print Assumptions C122_issued_partial.
(** Issued under limits that its name does not meet, it is revocable under the wider ones in force later. *)
Example C122_issued_case : env_laws toy /\ reconfigured toy (db_ops toy) rk_tr rk_cfg rc_s2 /\ issued_under rk_tr rc_cfg rc_issued /\ public_key (cf_cert rk_cfg) = o_pub toy (cf_sk rc_cfg) /\
  wf_name (cf_keyloc rc_cfg) /\ name_policy rk_cfg (c_name rc_issued) /\ within (in_t1 rk_i) (c_validity (cf_cert rk_cfg)) /\
  fits (enc_tlv (cert_tlv toy rc_issued)) /\ blen (name_wire (c_name rc_issued)) < 2 ^ 31 /\ ~ name_policy rc_cfg (c_name rc_issued).
Proof.
  split; [exact toy_laws|]. split; [exact rk_hist|]. split; [exact rk_issued|]. split; [reflexivity|]. split; [exact rk_keyloc|]. split; [exact (rk_name rk_cfg eq_refl eq_refl)|].
  split; [exact (proj1 rk_within)|]. split; [exact (proj1 rk_sizes)|]. split; [exact (proj2 rk_sizes)|exact rk_outside].
Qed.

(** And its holder opens a revocation request for it. *)
Theorem C122_opens_partial : forall E S (ops : store_ops S) tr g ca0 s0 rj i c sk, env_laws E -> config_fits g -> reconfigured E ops tr g ca0 -> revocable E g i c -> prepared E g s0 c sk ->
  let id := id_for E (ca_idkey ca0) (c_name c) in pending ops ca0 id = None -> length (ri_salt0 rj) = 32%nat ->
  exists ca es s r, revoking E g ops ca0 s0 rj i c = Some (ca, es, s, p_challenges (cfp g)) /\ pending ops ca id = Some r /\ rq_cert r = c /\ rq_type r = RT_REVOKE.
Proof. exact revoke_opens_c. Qed.
Print Assumptions C122_opens_partial.
Example C122_opens_case : env_laws toy /\ config_fits rk_cfg /\ reconfigured toy (db_ops toy) rk_tr rk_cfg rc_s2 /\ revocable toy rk_cfg rk_i rc_issued /\ prepared toy rk_cfg rk_req rc_issued x_sk /\
  pending (db_ops toy) rc_s2 (id_for toy (ca_idkey rc_s2) (c_name rc_issued)) = None /\ length (ri_salt0 (x_rin x_now 2)) = 32%nat.
Proof. split; [exact toy_laws|]. split; [exact rk_fits|]. split; [exact rk_hist|]. split; [exact rk_revocable|]. split; [exact rk_prepared|]. split; [exact rk_new|reflexivity]. Qed.

(** With another key, a certificate this CA issued is no longer taken for its own. *)
Theorem C122_key_refuted : forall E S (ops : store_ops S) tr g s g1 c i x peer, reconfigured E ops tr g s -> suffix_limit_sane g -> issued_under tr g1 c ->
  ~ cert_signed_by E c (public_key (cf_cert g)) -> addressed g VRevoke (i_name x) -> usable E g i RT_REVOKE x peer c ->
  exists d, step E g ops s (EvInterest i x) = Some (s, [EPut d]) /\ told_error E g x 3 (bs "Invalid signature in the certificate to revoke.") d.
Proof. exact revoke_other_key. Qed.
Print Assumptions C122_key_refuted.
Example C122_key_case : reconfigured toy (db_ops toy) (rc_before ++ (rc_cfg, rc_e1) :: [(x_cfg, rc_e2)] ++ (x_cfg, rc_e3) :: []) x_cfg (fst rc_ca3) /\ suffix_limit_sane x_cfg /\
  issued_under (rc_before ++ (rc_cfg, rc_e1) :: [(x_cfg, rc_e2)] ++ (x_cfg, rc_e3) :: []) rc_cfg rc_issued /\ ~ cert_signed_by toy rc_issued (public_key (cf_cert x_cfg)) /\
  addressed x_cfg VRevoke (i_name rk_x) /\ usable toy x_cfg rk_i RT_REVOKE rk_x rk_peer rc_issued.
Proof.
  split; [exact rc_hist3|]. split; [intros k H; injection H as <-; vm_compute; reflexivity|]. split; [exact rk_issued3|]. split; [exact rk_foreign|]. split; [exact (proj1 rk_addressed)|exact rk_usable].
Qed.

(** With a shorter limit on names, a certificate with a longer name cannot be revoked. *)
Theorem C122_name_refuted : forall E S (ops : store_ops S) tr g s g1 c i x peer, reconfigured E ops tr g s -> suffix_limit_sane g -> issued_under tr g1 c ->
  ~ name_policy g (c_name c) -> addressed g VRevoke (i_name x) -> readable E g i RT_REVOKE x peer c ->
  exists d, step E g ops s (EvInterest i x) = Some (s, [EPut d]) /\ told_error E g x 5 (bs "An invalid certificate name is being requested.") d.
Proof. exact revoke_other_name. Qed.
Print Assumptions C122_name_refuted.
Example C122_name_case : reconfigured toy (db_ops toy) (rc_before ++ [(rc_cfg, rc_e1)]) rc_cfg (fst rc_ca1) /\ suffix_limit_sane rc_cfg /\
  issued_under (rc_before ++ [(rc_cfg, rc_e1)]) rc_cfg rc_issued /\ ~ name_policy rc_cfg (c_name rc_issued) /\ addressed rc_cfg VRevoke (i_name rk_x) /\
  readable toy rc_cfg rk_i RT_REVOKE rk_x rk_peer rc_issued.
Proof.
  split; [exact rc_hist|]. split; [exact (proj1 rk_sane)|]. split; [exact rk_issued1|]. split; [exact rk_outside|]. split; [exact (proj2 rk_addressed)|exact (proj2 rk_readable)].
Qed.
