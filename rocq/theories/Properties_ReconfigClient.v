(** The command line client whose CA changes its configuration: theorem C127. *)
From Verif Require Import ReconfigClientWitness.
Local Open Scope N_scope.

(** ** C127: the client gets its certificate although the CA changes its configuration *)
(** The CA, whatever its configurations were before, opens a request for NEW; the client selects the challenge and sends the
    first CHALLENGE. *)
Theorem C127_opens : forall E S (ops : store_ops S) file pb h c x s0 ri tr g i ca0 ci identity kid sk nb na ctype life params, env_laws E -> config_fits g ->
  client_run E file pb h c (NWait x WNew) -> has_applied E c x s0 ri (identity ++ [gc (bs "KEY"); kid]) sk nb na -> holds (cl_pib c) identity kid sk ->
  reconfigured E ops tr g ca0 -> applies E g s0 ri i (identity ++ [gc (bs "KEY"); kid]) sk nb na ->
  let creq := cert_request E sk ri (identity ++ [gc (bs "KEY"); kid]) nb na in let id := id_for E (ca_idkey ca0) (c_name creq) in
  pending ops ca0 id = None -> length (ri_salt0 (ci_ri ci)) = 32%nat -> selects_first g c (ci_lines ci) ctype life params ->
  exists ca d c' x', answers E g ops ca0 i x ca d /\ client_run E file pb ((ci, Some (CData d)) :: h) c' (NWait x' WChallenge) /\
    in_round_change E ops ctype life id sk creq None (ci_ri ci) params g ca c' x'.
Proof. exact client_opens_c. Qed.
Print Assumptions C127_opens.
Example C127_opens_case : exists h c x, client_run toy w_file [] h c (NWait x WNew) /\ has_applied toy c x u_req0 (x_rin x_now 3) (x_id ++ [gc (bs "KEY"); gc (bs "k1")]) x_sk x_now (x_now + sec 3600) /\
  holds (cl_pib c) x_id (gc (bs "k1")) x_sk /\ reconfigured toy (db_ops toy) [] x_cfg x_ca0 /\ applies toy x_cfg u_req0 (x_rin x_now 3) (x_inputs x_now 1) (x_id ++ [gc (bs "KEY"); gc (bs "k1")]) x_sk x_now (x_now + sec 3600) /\
  pending (db_ops toy) x_ca0 u_id = None /\ selects_first x_cfg c (ci_lines (w_ci 4 [])) (bs "email") 300 [(bs "email", bs "alice@example")].
Proof. destruct u_opens as (h & c & x & R & HA & HO & _ & AP & P & SF). exists h, c, x. repeat (split; [first [assumption|exact rs_start0]|]). exact SF. Qed.
(** While the client waits, the CA may be started again with any configuration of its prefix and key pair, and do anything else that
    the client's key does not sign. *)
Theorem C127_meanwhile_partial : forall E S (ops : store_ops S) ctype life id sk creq ph ri params g ca c x g' ca', in_round_change E ops ctype life id sk creq ph ri params g ca c x ->
  quiet_change E ops id (o_pub E sk) g ca g' ca' -> o_pub E (cf_sk g') = o_pub E (cf_sk g) -> in_round_change E ops ctype life id sk creq ph ri params g' ca' c x.
Proof. exact client_meanwhile_c. Qed.
Print Assumptions C127_meanwhile_partial.
Example C127_meanwhile_case : (exists ca c x ca', in_round_change toy (db_ops toy) (bs "email") 300 u_id x_sk u_creq None (x_rin x_now 4) [(bs "email", bs "alice@example")] rs_cfg ca c x /\
    quiet_change toy (db_ops toy) u_id (o_pub toy x_sk) rs_cfg ca x_cfg ca') /\ o_pub toy (cf_sk x_cfg) = o_pub toy (cf_sk rs_cfg) /\ p_challenges (cfp x_cfg) <> p_challenges (cfp rs_cfg).
Proof. split; [|split; [reflexivity|discriminate]]. destruct uc_round as (h & c & x & ca & _ & R). exists ca, c, x. eexists. split; [exact R|apply rs_change; reflexivity]. Qed.
(** The CA answers the first CHALLENGE, having made a code, even if the configuration now in force does not offer the challenge; the
    client sends the code the user types. *)
Theorem C127_asked_partial : forall E g S (ops : store_ops S) file pb h c x ctype life id sk creq ri params ca i ci code typed, env_laws E -> code_life ctype life ->
  client_run E file pb h c (NWait x WChallenge) -> in_round_change E ops ctype life id sk creq None ri params g ca c x -> begins_with ctype params ->
  gen_code (in_words i) = Ok code -> in_script_ok i = true -> (0 <= in_t2 i)%Z -> be_enc 8 (ri_iv ri) <> rnd_iv i -> clock_ok (ci_ri ci) -> types ci typed -> blen typed < 2 ^ 30 ->
  exists ca' d c' x', answers E g ops ca i x ca' d /\ client_run E file pb ((ci, Some (CData d)) :: h) c' (NWait x' WChallenge) /\
    in_round_change E ops ctype life id sk creq (Some (code, O, in_t2 i)) (ci_ri ci) [(bs "code", typed)] g ca' c' x'.
Proof. exact client_asked_c. Qed.
Print Assumptions C127_asked_partial.
Example C127_asked_case : (exists h c x ca, client_run toy w_file [] h c (NWait x WChallenge) /\
    in_round_change toy (db_ops toy) (bs "email") 300 u_id x_sk u_creq None (x_rin x_now 4) [(bs "email", bs "alice@example")] rs_cfg ca c x) /\ ~ In (bs "email") (p_challenges (cfp rs_cfg)) /\
  code_life (bs "email") 300 /\ gen_code (in_words (x_inputs (x_now + sec 10) 2)) = Ok x_code /\ clock_ok (ci_ri (w_ci 5 [])) /\ types (w_ci 5 [bs "000000"]) (bs "000000").
Proof. split; [exact uc_round|]. split; [intros [Q|[]]; discriminate Q|]. split; [exact life_email|]. split; [meets|]. split; [exact (u_clock 5)|reflexivity]. Qed.
(** After a wrong code, with tries left, the client sends the next code the user types. *)
Theorem C127_wrong_partial : forall E g S (ops : store_ops S) file pb h c x ctype life id sk creq code k t ri given ca i ci typed, env_laws E -> code_life ctype life ->
  client_run E file pb h c (NWait x WChallenge) -> in_round_change E ops ctype life id sk creq (Some (code, k, t)) ri [(bs "code", given)] g ca c x -> given <> code -> blen given < 2 ^ 30 -> (k < 2)%nat ->
  (t <= in_t1 i < t + sec life - 1000 /\ 0 <= in_t2 i)%Z -> clock_ok (ci_ri ci) -> types ci typed -> blen typed < 2 ^ 30 ->
  exists ca' d c' x', answers E g ops ca i x ca' d /\ client_run E file pb ((ci, Some (CData d)) :: h) c' (NWait x' WChallenge) /\
    in_round_change E ops ctype life id sk creq (Some (code, Datatypes.S k, in_t2 i)) (ci_ri ci) [(bs "code", typed)] g ca' c' x'.
Proof. exact client_wrong_c. Qed.
Print Assumptions C127_wrong_partial.
(** After the third wrong code, the changes notwithstanding, the client leaves with status 1; its keys stay. *)
Theorem C127_third_partial : forall E g S (ops : store_ops S) file pb h c x ctype life id sk creq code t ri given ca i ci, env_laws E -> code_life ctype life ->
  client_run E file pb h c (NWait x WChallenge) -> in_round_change E ops ctype life id sk creq (Some (code, 2%nat, t)) ri [(bs "code", given)] g ca c x -> given <> code -> blen given < 2 ^ 30 ->
  (t <= in_t1 i < t + sec life - 1000)%Z ->
  exists ca' d c', answers E g ops ca i x ca' d /\ client_run E file pb ((ci, Some (CData d)) :: h) c' (NExit 1) /\ pending ops ca' id = None /\ cl_pib c' = cl_pib c.
Proof. exact client_third_c. Qed.
Print Assumptions C127_third_partial.
(** The state before the third code, reached by applying [C127_asked_partial] and, twice, [C127_wrong_partial] under other configurations. *)
Example C127_third_case : exists h c x ca, client_run toy w_file [] h c (NWait x WChallenge) /\
  in_round_change toy (db_ops toy) (bs "email") 300 u_id x_sk u_creq (Some (x_code, 2%nat, x_now + sec 30)%Z) (x_rin x_now 7) [(bs "code", bs "111111")] x_cfg ca c x /\ bs "111111" <> x_code.
Proof. destruct (uc_waiting (bs "111111")) as (h & c & x & ca & R & I); [meets|]. exists h, c, x, ca. split; [exact R|]. split; [exact I|discriminate]. Qed.
(** After the right code the client asks for the certificate, which is signed as the configuration now in force says.  The CA server
    gives it, whatever the CA does in between without a restart, changes of its files included; the client installs it and nothing
    else, and is done. *)
Theorem C127_installed_partial : forall E S (ops : store_ops S) file pb h c x ctype life id sk creq code k t ri tr g ca i ci profile v, env_laws E -> config_fits g -> code_life ctype life ->
  client_run E file pb h c (NWait x WChallenge) -> in_round_change E ops ctype life id sk creq (Some (code, k, t)) ri [(bs "code", code)] g ca c x -> reconfigured E ops tr g ca ->
  (t <= in_t1 i < t + sec life - 1000)%Z -> clock_ok (ci_ri ci) -> d_name profile = profile_name g v ->
  exists ca' es d c' y cert, let st := HStep ca (EvInterest i x) es ca' in
    step E g ops ca (EvInterest i x) = Some (ca', es) /\ puts es = [d] /\ client_run E file pb ((ci, Some (CData d)) :: h) c' (NWait y WCert) /\ certifies E g creq cert /\
    (forall later g2 ca2 newer, csteps E ops g ca' later g2 ca2 -> Forall (fun e => ~ restarts (h_ev (snd e))) later -> announced (map snd later) newer -> (length newer < 100)%nat ->
      Forall (fun c0 => ~ begins (c_name cert) (full_name E c0)) newer -> serve E profile (server_cache (seen (map snd (tr ++ (g, st) :: later)))) (i_name y) = Some (SCert cert)) /\
    forall ci2, exists c2, client_run E file pb ((ci2, Some (CCert cert)) :: (ci, Some (CData d)) :: h) c2 NDone /\ cl_installed c2 = [cert].
Proof. exact client_done_c. Qed.
Print Assumptions C127_installed_partial.
Example C127_installed_case : exists h c x ca tr, client_run toy w_file [] h c (NWait x WChallenge) /\
  in_round_change toy (db_ops toy) (bs "email") 300 u_id x_sk u_creq (Some (x_code, 2%nat, x_now + sec 30)%Z) (x_rin x_now 7) [(bs "code", x_code)] x_cfg ca c x /\ reconfigured toy (db_ops toy) tr x_cfg ca.
Proof. destruct (uc_waiting x_code) as (h & c & x & ca & R & I); [meets|]. destruct (uc_history _ _ _ _ _ _ _ I) as (tr & H). exists h, c, x, ca, tr. auto. Qed.
(** Not with another key: the right code makes the CA sign the certificate and forget the request, but the client leaves with status 1
    and has installed nothing. *)
Theorem C127_key_refuted : forall E S (ops : store_ops S) file pb h c x ctype life id sk creq code k t ri g ca g' ca' i ci, env_laws E -> config_fits g' -> code_life ctype life ->
  client_run E file pb h c (NWait x WChallenge) -> in_round_change E ops ctype life id sk creq (Some (code, k, t)) ri [(bs "code", code)] g ca c x ->
  quiet_change E ops id (o_pub E sk) g ca g' ca' -> (forall m, o_verify E (o_pub E (cf_sk g)) m (o_sign E (cf_sk g') m) = false) -> (t <= in_t1 i < t + sec life - 1000)%Z ->
  exists ca2 es d c2 cert, step E g' ops ca' (EvInterest i x) = Some (ca2, es) /\ puts es = [d] /\ In (EIssue cert) es /\ certifies E g' creq cert /\ public_key cert = o_pub E sk /\ pending ops ca2 id = None /\
    client_run E file pb ((ci, Some (CData d)) :: h) c2 (NExit 1) /\ cl_installed c2 = [].
Proof. exact client_key_change. Qed.
Print Assumptions C127_key_refuted.
Example C127_key_case : (exists h c x ca ca', client_run toy w_file [] h c (NWait x WChallenge) /\
    in_round_change toy (db_ops toy) (bs "email") 300 u_id x_sk u_creq (Some (x_code, 2%nat, x_now + sec 30)%Z) (x_rin x_now 7) [(bs "code", x_code)] x_cfg ca c x /\
    quiet_change toy (db_ops toy) u_id (o_pub toy x_sk) x_cfg ca rc_cfg ca') /\
  (forall m, o_verify toy (o_pub toy (cf_sk x_cfg)) m (o_sign toy (cf_sk rc_cfg) m) = false) /\ config_fits rc_cfg.
Proof.
  split; [|split; [exact rs_other|exact rs_second_fits]]. destruct (uc_waiting x_code) as (h & c & x & ca & R & I); [meets|]. exists h, c, x, ca. eexists. split; [exact R|]. split; [exact I|apply (rs_change x_cfg rc_cfg); reflexivity].
Qed.
