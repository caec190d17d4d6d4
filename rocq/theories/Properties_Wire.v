(** C94: the wire format. *)
From Verif Require Import CryptoFacts TraceWitness WireFacts WireWitness.
Local Open Scope N_scope.

(** ** C94: both sides speak the wire format of NDNCERT 0.3 *)
(** Whatever the CA answers is one of the messages it may send for that verb, with the numbers of the protocol; an issued certificate has the
    key name of a pending request. *)
Theorem C94_ca : forall E g S (ops : store_ops S) tr st s i x d, aes_laws E -> hash_laws E -> (forall k, p_maxsuffix (cfp g) = Some k -> k < 2 ^ 64) ->
  ca_history E g ops (tr ++ [st]) s -> handles st i x -> In (EPut d) (h_effs st) -> fits (d_content d) -> ca_message E g (asked_for ops (h_pre st)) x (d_content d).
Proof. exact replies_wired. Qed.
Print Assumptions C94_ca.
Example C94_ca_case : ca_history toy x_cfg (db_ops toy) ([x_e1; x_e2] ++ [x_e3]) (fst x_ca3) /\ (forall k, p_maxsuffix (cfp x_cfg) = Some k -> k < 2 ^ 64) /\
  handles x_e3 (x_inputs (x_now + sec 20) 3) (the_interest x_chal2) /\ exists d, In (EPut d) (h_effs x_e3) /\ fits (d_content d).
Proof. exact j_replies. Qed.
(** The profile it publishes. *)
Theorem C94_profile : forall E g S (ops : store_ops S) s ev s' es d, step E g ops s ev = Some (s', es) -> In (EProfile d) es -> fits (d_content d) ->
  exists v text, d_name d = p_prefix (cfp g) ++ [Tlv 8 (bs "CA"); Tlv 8 (bs "INFO"); Tlv 54 v; Tlv 50 [x00]] /\ (p_info (cfp g) <> [] -> text = p_info (cfp g)) /\
    wire_info E (p_prefix (cfp g)) text (p_probe_keys (cfp g)) (to_u64 (p_maxvalid (cfp g))) (cf_cert g) (d_content d).
Proof. exact profile_wired. Qed.
Print Assumptions C94_profile.
Example C94_profile_case : exists s' es d, step toy x_cfg (db_ops toy) x_ca0 (EvProfile (x_inputs x_now 1)) = Some (s', es) /\ In (EProfile d) es /\ fits (d_content d).
Proof. exact j_profile. Qed.
(** Names in all of these. *)
Theorem C94_name : forall n, wf_name n -> fits (name_wire n) -> wire_name n (name_wire n).
Proof. exact name_wired. Qed.
Print Assumptions C94_name.
Example C94_name_case : wf_name x_keyname /\ fits (name_wire x_keyname) /\ x_keyname <> [].
Proof. exact j_name. Qed.
(** The name by which a CA is named in redirections, by which the client tells its certificate. *)
Theorem C94_full_name : forall E c, wire_full_name E c (full_name E c).
Proof. exact full_name_wired. Qed.
Print Assumptions C94_full_name.
Example C94_full_name_case : exists w, wire_cert toy x_ca_cert w.
Proof. exact j_cert. Qed.
(** What the requester sends. *)
Theorem C94_probe : forall E p m x, gen_probe E p m = x -> fits (probe_params_encode m) -> exists w, interest_to (p_prefix p) [bs "PROBE"] x w /\ wire_pairs m w.
Proof. exact probe_sent. Qed.
Print Assumptions C94_probe.
Theorem C94_new : forall E s ri kn sk nb na x s', gen_new E s ri kn sk nb na = (Ok (Some x), s') -> (forall w, i_params x = Some w -> fits w) ->
  exists w c, interest_to (p_prefix (rs_profile s)) [bs "NEW"] x w /\ wire_request E 147 (o_ecdh_pub E (rs_ecdh s)) c w /\ key_name_of (c_name c) = kn.
Proof. exact new_sent. Qed.
Print Assumptions C94_new.
Theorem C94_revoke : forall E s c x, gen_revoke E s c = Some x -> (forall w, i_params x = Some w -> fits w) ->
  exists w, interest_to (p_prefix (rs_profile s)) [bs "REVOKE"] x w /\ wire_request E 177 (o_ecdh_pub E (rs_ecdh s)) c w.
Proof. exact revoke_sent. Qed.
Print Assumptions C94_revoke.
Theorem C94_challenge : forall E s ri m x s', aes_laws E -> rs_eiv s = [] \/ iv12 (rs_eiv s) -> gen_challenge E s ri m = (Ok x, s') -> (forall w, i_params x = Some w -> fits w) ->
  exists w plain, interest_to (p_prefix (rs_profile s)) [bs "CHALLENGE"; rs_id s] x w /\ wire_sealed E (rs_key s) (rs_id s) plain w /\ wire_answer (rs_ctype s) plain.
Proof. exact challenge_sent. Qed.
Print Assumptions C94_challenge.
Example C94_probe_case : fits (probe_params_encode [(bs "email", bs "a@b"); (bs "name", bs "alice")]).
Proof. vm_compute. reflexivity. Qed.
Example C94_new_case : exists x s', gen_new toy x_req0 (x_rin x_now 1) x_keyname x_sk x_now (x_now + sec 3600) = (Ok (Some x), s') /\ forall w, i_params x = Some w -> fits w.
Proof. exact j_new. Qed.
Example C94_revoke_case : exists x, gen_revoke toy x_req0 (rq_cert x_r2) = Some x /\ forall w, i_params x = Some w -> fits w.
Proof. exact j_revoke. Qed.
Example C94_challenge_case : (rs_eiv x_req3 = [] \/ iv12 (rs_eiv x_req3)) /\
  exists x s', gen_challenge toy x_req3 (x_rin x_now 5) [(bs "code", bs "000000")] = (Ok x, s') /\ forall w, i_params x = Some w -> fits w.
Proof. exact j_challenge. Qed.
