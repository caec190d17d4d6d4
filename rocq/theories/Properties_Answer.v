(** C107: the replies a requester acts on. *)
From Verif Require Import AnswerFacts AnswerWitness.
Local Open Scope N_scope.

(** ** C107: the replies a requester acts on are exactly those listed *)
(** A CA profile: what its content says, signed with the key of the certificate in it. *)
Theorem C107_profile : forall E d p, on_profile E d = Ok p <-> info_reads E (d_content d) p /\ exists c, p_cert p = Some c /\ data_verifies E d c.
Proof. exact @profile_ok_iff. Qed.
Print Assumptions C107_profile.
(** After a redirection the certificate must also be the announced one. *)
Theorem C107_redirected : forall E d full p, codec_laws E ->
  on_profile_redirected E d full = Ok p <-> info_reads E (d_content d) p /\ exists c, p_cert p = Some c /\ data_verifies E d c /\ full_name E c = full.
Proof. exact @redirected_ok_iff. Qed.
Print Assumptions C107_redirected.
Theorem C107_probe : forall E d p names redirects, on_probe_response E d p = Ok (names, redirects) <-> sound_reply E p d /\ probe_reads (d_content d) names redirects.
Proof. exact @probe_ok_iff. Qed.
Print Assumptions C107_probe.
Example C107_probe_case : on_probe_response toy j_probe (rs_profile x_req1) = Ok ([(x_id, 2%Z)], []).
Proof. exact j_probed. Qed.
(** A NEW or REVOKE reply gives the request its ID and its key. *)
Theorem C107_new : forall E s ri d chals s', on_new_response E s ri d = (Ok chals, s') <->
  sound_reply E (rs_profile s) d /\ exists peer salt id key, reply_reads (ri_salt0 ri) (rs_id s) (d_content d) peer salt id chals /\
    agrees E (rs_ecdh s) peer salt id key /\ joined id key s s'.
Proof. exact @new_ok_iff. Qed.
Print Assumptions C107_new.
Theorem C107_challenge : forall E s ri d s', on_challenge_response E s ri d = (Ok tt, s') <->
  sound_reply E (rs_profile s) d /\ exists pt, aes_reads E (rs_key s) (rs_id s) (rs_div s) (rs_eiv s) (d_content d) pt (rs_div s') /\
    challenge_reads (ri_now ri) pt s s' /\ rest_kept s s'.
Proof. exact @challenge_ok_iff. Qed.
Print Assumptions C107_challenge.
Example C107_case : (exists p, on_profile toy y_profile = Ok p /\ on_profile_redirected toy y_profile (full_name toy x_ca_cert) = Ok p) /\
  (exists chals s', on_new_response toy x_req1 (x_rin x_now 2) (the_put (snd x_ca1)) = (Ok chals, s')) /\
  exists s', on_challenge_response toy (snd x_chal1) (x_rin x_now 4) (the_put (snd x_ca2)) = (Ok tt, s').
Proof. exact j_good. Qed.
(** The behaviour is undefined exactly for: a profile without certificate; any reply when the profile in use has no certificate; a NEW or
    REVOKE reply with a salt or an ID longer than its buffer, reached by the decoder; a CHALLENGE reply with a remaining time out of range,
    reached by the decoder. *)
Theorem C107_profile_faults : forall E d full, codec_laws E ->
  (on_profile E d = UB <-> exists p, info_reads E (d_content d) p /\ p_cert p = None) /\
  (on_profile_redirected E d full = UB <-> exists p, info_reads E (d_content d) p /\ p_cert p = None).
Proof. exact (fun E d full L => conj (profile_ub_iff d) (redirected_ub_iff d full L)). Qed.
Print Assumptions C107_profile_faults.
Theorem C107_reply_faults : forall E s ri d, rs_div s = [] \/ iv12 (rs_div s) -> rs_eiv s = [] \/ iv12 (rs_eiv s) ->
  (on_probe_response E d (rs_profile s) = UB <-> p_cert (rs_profile s) = None) /\
  (fst (on_new_response E s ri d) = UB <-> p_cert (rs_profile s) = None \/
     (sound_reply E (rs_profile s) d /\ exists before t rest, parse (d_content d) = Some (before ++ t :: rest) /\ only_known_critical known_new_reply before /\
        Forall (fun t => ~ too_long (ri_salt0 ri) (rs_id s) t) before /\ too_long (ri_salt0 ri) (rs_id s) t)) /\
  (fst (on_challenge_response E s ri d) = UB <-> p_cert (rs_profile s) = None \/
     (sound_reply E (rs_profile s) d /\ exists pt iv' els before t rest, aes_reads E (rs_key s) (rs_id s) (rs_div s) (rs_eiv s) (d_content d) pt iv' /\ parse pt = Some els /\
        els = before ++ t :: rest /\ fine_part (ri_now ri) els before /\ t_type t = T_RemainingTime /\ out_of_range (ri_now ri) (t_val t))).
Proof. exact (fun E s ri d DV EV => conj (probe_ub_iff d (rs_profile s)) (conj (new_ub_iff s ri d) (challenge_ub_iff s ri d DV EV))). Qed.
Print Assumptions C107_reply_faults.
Example C107_faults_case : on_profile toy j_none = UB /\ fst (on_new_response toy x_req1 (x_rin x_now 2) j_long) = UB /\
  (rs_div (snd x_chal1) = [] \/ iv12 (rs_div (snd x_chal1))) /\ (rs_eiv (snd x_chal1) = [] \/ iv12 (rs_eiv (snd x_chal1))) /\
  fst (on_challenge_response toy (snd x_chal1) (x_rin x_now 4) j_ages) = UB.
Proof. exact j_faults. Qed.
(** Every other reply is turned down with an exception. *)
Theorem C107_ends : forall E s ri d full, rs_div s = [] \/ iv12 (rs_div s) -> rs_eiv s = [] \/ iv12 (rs_eiv s) -> codec_laws E ->
  on_profile E d <> Hang /\ on_profile_redirected E d full <> Hang /\ on_probe_response E d (rs_profile s) <> Hang /\
  fst (on_new_response E s ri d) <> Hang /\ fst (on_challenge_response E s ri d) <> Hang.
Proof. exact @answers_end. Qed.
Print Assumptions C107_ends.
