(** An honest requester whose CA changes its configuration.  [session_change] is in Spec_ReconfigSession.v. *)
From Verif Require Import ReconfigSessionWitness.
Local Open Scope N_scope.

(** ** C121 An honest requester obtains its certificate although the CA changes its configuration *)
(** A CA with any history of configurations accepts the request. *)
Theorem C121_opens : forall E S (ops : store_ops S) ctype life tr g ca0 s0 ri rj i keyname sk nb na, env_laws E -> config_fits g -> reconfigured E ops tr g ca0 ->
  applies E g s0 ri i keyname sk nb na ->
  let creq := cert_request E sk ri keyname nb na in let id := id_for E (ca_idkey ca0) (c_name creq) in
  pending ops ca0 id = None -> length (ri_salt0 rj) = 32%nat ->
  exists ca es s, opening E g ops ca0 s0 ri rj i keyname sk nb na = Some (ca, es, s, p_challenges (cfp g)) /\
    session_change E ops ctype life id sk creq None g ca s.
Proof. exact open_change. Qed.
Print Assumptions C121_opens.
Example C121_opens_case : env_laws toy /\ config_fits x_cfg /\ reconfigured toy (db_ops toy) [] x_cfg x_ca0 /\
  applies toy x_cfg x_req0 (x_rin x_now 1) (x_inputs x_now 1) x_keyname x_sk x_now (x_now + sec 3600) /\
  cert_request toy x_sk (x_rin x_now 1) x_keyname x_now (x_now + sec 3600) = x_creq /\ id_for toy (ca_idkey x_ca0) (c_name x_creq) = SessionWitness.v_id /\
  pending (db_ops toy) x_ca0 SessionWitness.v_id = None /\ length (ri_salt0 (x_rin x_now 2)) = 32%nat.
Proof. split; [exact toy_laws|]. split; [exact v_fits|]. split; [exact rs_start0|]. split; [exact v_applies|]. split; [exact v_creq|]. repeat split. Qed.

(** The challenge starts under whatever configuration with the same key is in force by then. *)
Theorem C121_starts_partial : forall E S (ops : store_ops S) ctype life id sk creq g ca s ri rj i params code, env_laws E -> code_life ctype life ->
  session_change E ops ctype life id sk creq None g ca s -> begins_with ctype params -> gen_code (in_words i) = Ok code -> in_script_ok i = true -> (0 <= in_t2 i)%Z ->
  be_enc 8 (ri_iv ri) <> rnd_iv i -> clock_ok rj ->
  exists ca' s' d r es, round E g ops ca s ri rj i ctype params = Some (ca', es ++ [EUpdate r; EPut d; ECallback r], s') /\
    (exists cs, rq_cs r = Some cs /\ sec_get (bs "code") (cs_secrets cs) = Some code) /\
    session_change E ops ctype life id sk creq (Some (code, 0%nat, in_t2 i)) g ca' s' /\
    rs_status s' = ST_CHALLENGE /\ rs_cstatus s' = bs "need-code" /\ rs_tries s' = 3%Z /\ rs_fresh s' = (ri_now rj + sec life)%Z.
Proof. exact start_change. Qed.
Print Assumptions C121_starts_partial.
(** The configuration in force is not the one the request was accepted under. *)
Example C121_starts_case : (exists ca s, session_change toy (db_ops toy) (bs "pin") 3600 SessionWitness.v_id x_sk x_creq None rs_cfg ca s) /\ code_life (bs "pin") 3600 /\ begins_with (bs "pin") [] /\
  gen_code (in_words (x_inputs (x_now + sec 10) 2)) = Ok x_code /\ be_enc 8 (ri_iv (x_rin x_now 3)) <> rnd_iv (x_inputs (x_now + sec 10) 2) /\ clock_ok (x_rin x_now 4) /\
  p_challenges (cfp rs_cfg) <> p_challenges (cfp x_cfg) /\ p_maxvalid (cfp rs_cfg) <> p_maxvalid (cfp x_cfg).
Proof.
  split; [exact (rs_open (bs "pin") 3600)|]. split; [exact life_pin|]. split; [exact bw_pin|]. split; [vm_compute; reflexivity|]. split; [vm_compute; discriminate|]. split; [exact v_clock|].
  split; vm_compute; discriminate.
Qed.

(** A wrong code costs one try, and the requester is told so. *)
Theorem C121_wrong_code_partial : forall E S (ops : store_ops S) ctype life id sk creq code k t g ca s ri rj i given, env_laws E -> code_life ctype life ->
  session_change E ops ctype life id sk creq (Some (code, k, t)) g ca s -> given <> code -> blen given < 2 ^ 30 ->
  (t <= in_t1 i < t + sec life - 1000 /\ 0 <= in_t2 i)%Z -> clock_ok rj -> (k < 2)%nat ->
  exists ca' s' d r, round E g ops ca s ri rj i ctype [(bs "code", given)] = Some (ca', [EUpdate r; EPut d; ECallback r], s') /\
    session_change E ops ctype life id sk creq (Some (code, Datatypes.S k, in_t2 i)) g ca' s' /\
    rs_status s' = ST_CHALLENGE /\ rs_cstatus s' = bs "wrong-code" /\ rs_tries s' = (2 - Z.of_nat k)%Z /\
    (ri_now rj <= rs_fresh s' <= ri_now rj + sec life)%Z.
Proof. exact wrong_change. Qed.
Print Assumptions C121_wrong_code_partial.
(** No change of the configuration gives back a try. *)
Theorem C121_tries : forall E S (ops : store_ops S) ctype life id sk creq code k t g ca s, env_laws E -> code_life ctype life ->
  session_change E ops ctype life id sk creq (Some (code, k, t)) g ca s -> (k <= 2)%nat.
Proof. exact tries_change. Qed.
Print Assumptions C121_tries.
(** The right code, within the lifetime and after at most two wrong ones, ends in SUCCESS with the name of a certificate for the
    requester's key, signed as the configuration now in force says; the request is gone. *)
Theorem C121_succeeds_partial : forall E S (ops : store_ops S) ctype life id sk creq code k t g ca s ri rj i, env_laws E -> config_fits g -> code_life ctype life ->
  session_change E ops ctype life id sk creq (Some (code, k, t)) g ca s -> (t <= in_t1 i < t + sec life - 1000)%Z -> clock_ok rj ->
  exists ca' s' c d r, round E g ops ca s ri rj i ctype [(bs "code", code)] = Some (ca', [EIssue c; EDelete id; EPut d; ECallback r], s') /\
    certifies E g creq c /\ public_key c = o_pub E sk /\ rs_status s' = ST_SUCCESS /\ rs_issued s' = c_name c /\
    rs_fwd s' = p_fwd (cfp g) /\ pending ops ca' id = None.
Proof. exact right_change. Qed.
Print Assumptions C121_succeeds_partial.
Example C121_case : (exists ca s, session_change toy (db_ops toy) (bs "pin") 3600 SessionWitness.v_id x_sk x_creq (Some (x_code, 1%nat, x_now + sec 20)%Z) x_cfg ca s) /\
  bs "111111" <> x_code /\ (x_now + sec 20 <= in_t1 (x_inputs (x_now + sec 30) 4) < x_now + sec 20 + sec 3600 - 1000)%Z /\ clock_ok (x_rin x_now 4) /\ config_fits x_cfg.
Proof. split; [exact rs_tried|]. split; [vm_compute; discriminate|]. split; [meets|]. split; [exact v_clock|exact v_fits]. Qed.

(** Not with another key: the right code makes the CA sign the certificate and forget the request, but the requester checks the reply
    with the certificate of the profile it began with and throws.  It never learns the name of its certificate. *)
Theorem C121_key_refuted : forall E S (ops : store_ops S) ctype life id sk creq code k t g ca s g' ca' ri i, env_laws E -> config_fits g' -> code_life ctype life ->
  session_change E ops ctype life id sk creq (Some (code, k, t)) g ca s -> quiet_change E ops id (o_pub E sk) g ca g' ca' ->
  (forall m, o_verify E (o_pub E (cf_sk g)) m (o_sign E (cf_sk g') m) = false) -> (t <= in_t1 i < t + sec life - 1000)%Z ->
  exists x s' ca2 c d r, (exists m s1, select_challenge s ctype = (Ok m, s1) /\ gen_challenge E s1 ri [(bs "code", code)] = (Ok x, s')) /\
    step E g' ops ca' (EvInterest i x) = Some (ca2, [EIssue c; EDelete id; EPut d; ECallback r]) /\ certifies E g' creq c /\ public_key c = o_pub E sk /\
    pending ops ca2 id = None /\ forall rj, fst (on_challenge_response E s' rj d) = Exn.
Proof. exact key_change. Qed.
Print Assumptions C121_key_refuted.
Example C121_key_case : (exists ca s ca', session_change toy (db_ops toy) (bs "pin") 3600 SessionWitness.v_id x_sk x_creq (Some (x_code, 1%nat, x_now + sec 20)%Z) x_cfg ca s /\
    quiet_change toy (db_ops toy) SessionWitness.v_id (o_pub toy x_sk) x_cfg ca rc_cfg ca') /\
  (forall m, o_verify toy (o_pub toy (cf_sk x_cfg)) m (o_sign toy (cf_sk rc_cfg) m) = false) /\ config_fits rc_cfg /\
  (x_now + sec 20 <= in_t1 (x_inputs (x_now + sec 30) 4) < x_now + sec 20 + sec 3600 - 1000)%Z.
Proof.
  split; [destruct rs_tried as (ca & s & SE); exists ca, s; eexists; split; [exact SE|apply (rs_change x_cfg rc_cfg); reflexivity]|]. split; [exact rs_other|]. split; [exact rs_second_fits|meets].
Qed.
