(** A revocation during which the CA changes its configuration.  [revocation_change] is in Spec_ReconfigRevocation.v. *)
From Verif Require Import ReconfigRevocationWitness.
Local Open Scope N_scope.

(** ** C125 The holder of a certificate completes its revocation although the CA changes its configuration *)
(** A CA with any history of configurations accepts the REVOKE Interest for a certificate that is revocable under the configuration in force. *)
Theorem C125_opens_partial : forall E S (ops : store_ops S) ctype life tr g ca0 s0 rj i c sk, env_laws E -> config_fits g -> reconfigured E ops tr g ca0 ->
  revocable E g i c -> prepared E g s0 c sk ->
  let id := id_for E (ca_idkey ca0) (c_name c) in pending ops ca0 id = None -> length (ri_salt0 rj) = 32%nat ->
  exists ca es s, revoking E g ops ca0 s0 rj i c = Some (ca, es, s, p_challenges (cfp g)) /\ revocation_change E ops ctype life id sk c None g ca s.
Proof. exact revoke_open_change. Qed.
Print Assumptions C125_opens_partial.
Example C125_opens_case : env_laws toy /\ config_fits rk_cfg /\ reconfigured toy (db_ops toy) rk_tr rk_cfg rc_s2 /\ revocable toy rk_cfg rk_i rc_issued /\ prepared toy rk_cfg rk_req rc_issued x_sk /\
  pending (db_ops toy) rc_s2 (id_for toy (ca_idkey rc_s2) (c_name rc_issued)) = None /\ length (ri_salt0 (x_rin x_now 2)) = 32%nat.
Proof. split; [exact toy_laws|]. split; [exact rk_fits|]. split; [exact rk_hist|]. split; [exact rk_revocable|]. split; [exact rk_prepared|]. split; [exact rk_new|reflexivity]. Qed.

(** The challenge starts under whatever configuration with the same key is in force by then, *)
Theorem C125_starts_partial : forall E S (ops : store_ops S) ctype life id sk c g ca s ri rj i params code, env_laws E -> code_life ctype life ->
  revocation_change E ops ctype life id sk c None g ca s -> begins_with ctype params -> gen_code (in_words i) = Ok code -> in_script_ok i = true -> (0 <= in_t2 i)%Z ->
  be_enc 8 (ri_iv ri) <> rnd_iv i -> clock_ok rj ->
  exists ca' s' d r es, round E g ops ca s ri rj i ctype params = Some (ca', es ++ [EUpdate r; EPut d; ECallback r], s') /\
    (exists cs, rq_cs r = Some cs /\ sec_get (bs "code") (cs_secrets cs) = Some code) /\
    revocation_change E ops ctype life id sk c (Some (code, 0%nat, in_t2 i)) g ca' s' /\
    rs_status s' = ST_CHALLENGE /\ rs_cstatus s' = bs "need-code" /\ rs_tries s' = 3%Z /\ rs_fresh s' = (ri_now rj + sec life)%Z.
Proof. exact revoke_start_change. Qed.
Print Assumptions C125_starts_partial.
(** even one under which the REVOKE Interest would have been refused. *)
Example C125_starts_case : (exists ca s, revocation_change toy (db_ops toy) (bs "pin") 3600 rk_id x_sk rc_issued None rc_cfg ca s) /\ code_life (bs "pin") 3600 /\ begins_with (bs "pin") [] /\
  gen_code (in_words (x_inputs (x_now + sec 70) 2)) = Ok x_code /\ be_enc 8 (ri_iv (x_rin x_now 3)) <> rnd_iv (x_inputs (x_now + sec 70) 2) /\ clock_ok (x_rin x_now 4) /\
  ~ name_policy rc_cfg (c_name rc_issued).
Proof.
  split; [exact (rvn_open (bs "pin") 3600)|]. split; [exact life_pin|]. split; [exact bw_pin|]. split; [vm_compute; reflexivity|]. split; [vm_compute; discriminate|]. split; [exact v_clock|exact rk_outside].
Qed.

(** A wrong code costs one try, and the holder is told so; *)
Theorem C125_wrong_code_partial : forall E S (ops : store_ops S) ctype life id sk c code k t g ca s ri rj i given, env_laws E -> code_life ctype life ->
  revocation_change E ops ctype life id sk c (Some (code, k, t)) g ca s -> given <> code -> blen given < 2 ^ 30 ->
  (t <= in_t1 i < t + sec life - 1000 /\ 0 <= in_t2 i)%Z -> clock_ok rj -> (k < 2)%nat ->
  exists ca' s' d r, round E g ops ca s ri rj i ctype [(bs "code", given)] = Some (ca', [EUpdate r; EPut d; ECallback r], s') /\
    revocation_change E ops ctype life id sk c (Some (code, Datatypes.S k, in_t2 i)) g ca' s' /\
    rs_status s' = ST_CHALLENGE /\ rs_cstatus s' = bs "wrong-code" /\ rs_tries s' = (2 - Z.of_nat k)%Z /\
    (ri_now rj <= rs_fresh s' <= ri_now rj + sec life)%Z.
Proof. exact revoke_wrong_change. Qed.
Print Assumptions C125_wrong_code_partial.
(** no change of the configuration gives back a try; *)
Theorem C125_tries : forall E S (ops : store_ops S) ctype life id sk c code k t g ca s, env_laws E -> code_life ctype life ->
  revocation_change E ops ctype life id sk c (Some (code, k, t)) g ca s -> (k <= 2)%nat.
Proof. exact revoke_tries_change. Qed.
Print Assumptions C125_tries.
(** and the right code ends it with SUCCESS on both sides: the CA deletes the request, reports the revocation of exactly this certificate
    to its callback, and signs nothing. *)
Theorem C125_ends_partial : forall E S (ops : store_ops S) ctype life id sk c code k t g ca s ri rj i, env_laws E -> code_life ctype life ->
  revocation_change E ops ctype life id sk c (Some (code, k, t)) g ca s -> (t <= in_t1 i < t + sec life - 1000)%Z -> clock_ok rj ->
  exists ca' s' d r, round E g ops ca s ri rj i ctype [(bs "code", code)] = Some (ca', [EDelete id; EPut d; ECallback r], s') /\
    rq_cert r = c /\ rq_type r = RT_REVOKE /\ rq_status r = ST_SUCCESS /\ rs_status s' = ST_SUCCESS /\ rs_issued s' = rs_issued s /\ pending ops ca' id = None.
Proof. exact revoke_right_change. Qed.
Print Assumptions C125_ends_partial.
(** One wrong code has been tried. *)
Example C125_case : (exists ca s, revocation_change toy (db_ops toy) (bs "pin") 3600 rk_id x_sk rc_issued (Some (x_code, 1%nat, x_now + sec 80)%Z) rk_cfg ca s) /\
  bs "111111" <> x_code /\ (x_now + sec 80 <= in_t1 (x_inputs (x_now + sec 90) 4) < x_now + sec 80 + sec 3600 - 1000)%Z /\ clock_ok (x_rin x_now 4).
Proof. split; [exact rvn_tried|]. split; [vm_compute; discriminate|]. split; [meets|exact v_clock]. Qed.

(** Not with another key: the right code still makes the CA end the revocation and report it, but the holder checks the reply with the
    certificate of the profile it began with and throws.  It never learns that the revocation was accepted. *)
Theorem C125_key_refuted : forall E S (ops : store_ops S) ctype life id sk c code k t g ca s g' ca' ri i, env_laws E -> code_life ctype life ->
  revocation_change E ops ctype life id sk c (Some (code, k, t)) g ca s -> quiet_change E ops id (o_pub E sk) g ca g' ca' ->
  (forall m, o_verify E (o_pub E (cf_sk g)) m (o_sign E (cf_sk g') m) = false) -> (t <= in_t1 i < t + sec life - 1000)%Z ->
  exists x s' ca2 d r, (exists m s1, select_challenge s ctype = (Ok m, s1) /\ gen_challenge E s1 ri [(bs "code", code)] = (Ok x, s')) /\
    step E g' ops ca' (EvInterest i x) = Some (ca2, [EDelete id; EPut d; ECallback r]) /\ rq_cert r = c /\ rq_type r = RT_REVOKE /\ rq_status r = ST_SUCCESS /\
    pending ops ca2 id = None /\ forall rj, fst (on_challenge_response E s' rj d) = Exn.
Proof. exact revoke_key_change. Qed.
Print Assumptions C125_key_refuted.
Example C125_key_case : (exists ca s ca', revocation_change toy (db_ops toy) (bs "pin") 3600 rk_id x_sk rc_issued (Some (x_code, 1%nat, x_now + sec 80)%Z) rk_cfg ca s /\
    quiet_change toy (db_ops toy) rk_id (o_pub toy x_sk) rk_cfg ca x_cfg ca') /\
  (forall m, o_verify toy (o_pub toy (cf_sk rk_cfg)) m (o_sign toy (cf_sk x_cfg) m) = false) /\
  (x_now + sec 80 <= in_t1 (x_inputs (x_now + sec 90) 4) < x_now + sec 80 + sec 3600 - 1000)%Z.
Proof.
  split; [destruct rvn_tried as (ca & s & SE); exists ca, s; eexists; split; [exact SE|apply (rs_change rk_cfg x_cfg); reflexivity]|]. split; [exact rvn_other|meets].
Qed.
