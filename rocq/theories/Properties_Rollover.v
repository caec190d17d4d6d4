(** The CA is given another certificate or key while it runs.  [one_key_since_start] and [cert_fits] are in Spec_Rollover.v. *)
From Verif Require Import RolloverWitness.
Local Open Scope N_scope.

(** ** C123 Requesters learn the certificate that the CA's packets verify with *)
(** As long as the key pair has been the same since the last start (the certificate may have been renewed for it), whoever takes the profile learns a
    certificate with which every packet signed by the CA verifies. *)
Theorem C123_learned_partial : forall E S (ops : store_ops S) tr g s d, env_laws E -> reconfigured E ops tr g s -> ca_prof s = Some d -> one_key_since_start E tr g ->
  fits (p_info (cfp g)) -> Forall fits (p_probe_keys (cfp g)) -> (- 2 ^ 63 <= p_maxvalid (cfp g) < 2 ^ 63)%Z -> Forall (fun e => cert_fits E (fst e)) tr ->
  exists p c, on_profile E d = Ok p /\ p_prefix p = p_prefix (cfp g) /\ p_maxvalid p = p_maxvalid (cfp g) /\ p_cert p = Some c /\ public_key c = o_pub E (cf_sk g) /\
    (forall m, data_signed_by E m (cf_sk g) -> verify_data E m c = true).
Proof. exact learned. Qed.
Print Assumptions C123_learned_partial.
(** The certificate was renewed after the profile had been published. *)
Example C123_learned_case : env_laws toy /\ reconfigured toy (db_ops toy) [(x_cfg, ro_e)] ro_same (fst rc_p1) /\ ca_prof (fst rc_p1) = Some ro_d /\ one_key_since_start toy [(x_cfg, ro_e)] ro_same /\
  fits (p_info (cfp ro_same)) /\ Forall fits (p_probe_keys (cfp ro_same)) /\ (- 2 ^ 63 <= p_maxvalid (cfp ro_same) < 2 ^ 63)%Z /\ Forall (fun e => cert_fits toy (fst e)) [(x_cfg, ro_e)] /\
  cf_cert ro_same <> cf_cert x_cfg.
Proof.
  split; [exact toy_laws|]. split; [apply ro_hist|]. split; [exact ro_prof|]. split; [exact ro_one|]. split; [meets|]. split; [repeat constructor|]. split; [split; vm_compute; congruence|].
  split; [exact ro_cert_fits|discriminate].
Qed.

(** Once made, the profile stays what it is until the CA is started again, whatever keys it is given in between. *)
Theorem C123_stays : forall E S (ops : store_ops S) g s tr g2 s2 d, csteps E ops g s tr g2 s2 -> ca_prof s = Some d -> Forall (fun e => ~ restarts (h_ev (snd e))) tr -> ca_prof s2 = Some d.
Proof. exact profile_stays. Qed.
Print Assumptions C123_stays.
(** Another key, and another event after it. *)
Example C123_stays_case : csteps toy (db_ops toy) x_cfg (fst rc_p1) [(ro_other, HStep (fst rc_p1) (EvInterest (x_inputs x_now 1) ro_x) (snd ro_ca1) (fst ro_ca1))] ro_other (fst ro_ca1) /\
  ca_prof (fst rc_p1) = Some ro_d /\ cf_sk ro_other <> cf_sk x_cfg.
Proof. split; [|split; [exact ro_prof|discriminate]]. apply (csteps_key _ _ _ rc_cert rc_sk (x_prefix ++ [c_KEY; gc (bs "second")])). apply csteps_event; [vm_compute; reflexivity|constructor]. Qed.

(** So after a change of the key pair the CA hands out the old certificate: a requester that follows this profile has its NEW accepted and stored, and rejects the answer. *)
Theorem C123_stale_refuted : exists tr g s d p c s0 x s1 i s2 es m rj id r, reconfigured toy (db_ops toy) tr g s /\ public_key (cf_cert g) = o_pub toy (cf_sk g) /\
  ca_prof s = Some d /\ on_profile toy d = Ok p /\ p_cert p = Some c /\ public_key c <> o_pub toy (cf_sk g) /\
  s0 = request_init p RT_NEW (bs "alice ephemeral") (repeat x00 8) /\ gen_new toy s0 (x_rin x_now 1) x_keyname x_sk x_now (x_now + sec 3600) = (Ok (Some x), s1) /\
  step toy g (db_ops toy) s (EvInterest i x) = Some (s2, es) /\ puts es = [m] /\ pending (db_ops toy) s id = None /\ pending (db_ops toy) s2 id = Some r /\ rq_cert r = x_creq /\
  fst (on_new_response toy s1 rj m) = Exn.
Proof. exact ro_stale. Qed.
Print Assumptions C123_stale_refuted.
