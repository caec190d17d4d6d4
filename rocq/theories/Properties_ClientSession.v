(** The command line client talking to an honest CA: theorem C77. *)
From Verif Require Import ClientSessionWitness.
Local Open Scope N_scope.

(** ** C77: the client gets its certificate from an honest CA *)
(** The user types the number of a CA in the list whose certificate there carries the CA's key.  The client
    discovers the profile and, with whatever lines the user then types, sends PROBE with one parameter for each key
    the CA asks for.  The last two Interests are sent if the version in the profile's name is a uint64. *)
Theorem C77_asks : forall E g S (ops : store_ops S) ca i file pb known ci0 l ls v q cc n last ci1 ci2, codec_laws E -> sig_laws E -> reachable E g ops ca ->
  p_prefix (cfp g) = n ++ [last] -> t_val last <> bs "CA" -> in_mversion i < 2 ^ 64 -> publishable E g ->
  store_load E file = Ok known -> ci_lines ci0 = l :: ls -> stoul l = Some v -> nth_error known (N.to_nat v) = Some q -> p_prefix q = p_prefix (cfp g) -> p_cert q = Some cc -> public_key cc = o_pub E (cf_sk g) ->
  exists c0 x ca' m d w, client_run E file pb [(ci0, None)] c0 (NWait x (WMeta [])) /\ answers E g ops ca i x ca' m /\ ca_prof ca' = Some d /\ d_name d = profile_name g w /\
    (w < 2 ^ 64 -> name_fits (p_prefix (cfp g) ++ [gc (bs "CA"); gc (bs "INFO"); version_comp w]) -> exists c1 y c2 z p mm,
       client_run E file pb [(ci1, Some (CData m)); (ci0, None)] c1 (NWait y (WInfo [])) /\ i_name y = d_name d /\
       client_run E file pb [(ci2, Some (CData d)); (ci1, Some (CData m)); (ci0, None)] c2 (NWait z (WProbe p)) /\
       p_prefix p = p_prefix (cfp g) /\ p_cert p = Some (cf_cert g) /\ cl_probe c2 = Some mm /\ Permutation (map fst mm) (p_probe_keys (cfp g))).
Proof. exact client_asks. Qed.
Print Assumptions C77_asks.
Example C77_asks_case : exists n last, reachable toy x_cfg (db_ops toy) x_ca0 /\ p_prefix (cfp x_cfg) = n ++ [last] /\ t_val last <> bs "CA" /\ in_mversion (x_inputs x_now 1) < 2 ^ 64 /\ publishable toy x_cfg /\
  store_load toy u_file = Ok [k_plain_profile; u_known] /\ stoul (bs "1") = Some 1 /\ p_prefix u_known = p_prefix (cfp x_cfg) /\ p_cert u_known = Some x_ca_cert /\ public_key x_ca_cert = o_pub toy (cf_sk x_cfg).
Proof. exact u_asks. Qed.
(** The CA answers PROBE with the names its policies yield.  The user chooses one, types the number of hours, and
    chooses a key; the client creates it if need be and sends NEW for that name, that key and that period. *)
Theorem C77_applies : forall E g S (ops : store_ops S) file pb h c x p cc m s i ci ns n l ls ls1 v kid sk, sig_laws E -> client_run E file pb h c (NWait x (WProbe p)) ->
  p_prefix p = p_prefix (cfp g) -> p_cert p = Some cc -> public_key cc = o_pub E (cf_sk g) -> cl_probe c = Some m -> Forall (fun kv => fits (fst kv) /\ fits (snd kv)) m ->
  targets E m (cf_redirect (cf g)) [] -> offers E m (assignments g) (in_words64 i) ns -> p_prefix (cfp g) <> [] -> Forall (probe_fits (p_maxsuffix (cfp g))) (map (app (p_prefix (cfp g))) ns) ->
  (forall k, p_maxsuffix (cfp g) = Some k -> k < 2 ^ 64) -> chooses (ci_lines ci) ns n ls -> ls = l :: ls1 -> stoul l = Some v -> adds_up (ci_now ci) (sec (to_i32 v * 3600)) ->
  picks pb ci ls1 (p_prefix (cfp g) ++ n) kid sk ->
  exists d c' x', on_interest E g ops s i x = ([EPut d], Ok tt) /\ client_run E file pb ((ci, Some (CData d)) :: h) c' (NWait x' WNew) /\
    has_applied E c' x' (request_init p RT_NEW (ci_ecdh ci) (ci_id0 ci)) (ci_ri ci) (p_prefix (cfp g) ++ n ++ [gc (bs "KEY"); kid]) sk (ci_now ci) (ci_now ci + sec (to_i32 v * 3600)) /\
    holds (cl_pib c') (p_prefix (cfp g) ++ n) kid sk /\ cl_probe c' = Some m.
Proof. exact client_applies. Qed.
Print Assumptions C77_applies.
Example C77_applies_case : exists h c x, client_run toy w_file [] h c (NWait x (WProbe u_profile)) /\ p_prefix u_profile = p_prefix (cfp x_cfg) /\ p_cert u_profile = Some x_ca_cert /\ public_key x_ca_cert = o_pub toy (cf_sk x_cfg) /\
  cl_probe c = Some u_params /\ Forall (fun kv => fits (fst kv) /\ fits (snd kv)) u_params /\ targets toy u_params (cf_redirect (cf x_cfg)) [] /\ offers toy u_params (assignments x_cfg) (in_words64 (x_inputs x_now 1)) [[gc (bs "alice")]] /\
  Forall (probe_fits (p_maxsuffix (cfp x_cfg))) (map (app (p_prefix (cfp x_cfg))) [[gc (bs "alice")]]) /\ chooses [bs "1"] [[gc (bs "alice")]] [gc (bs "alice")] [bs "1"] /\ stoul (bs "1") = Some 1 /\
  adds_up x_now (sec (to_i32 1 * 3600)) /\ picks [] (w_ci 3 [bs "1"]) [] (p_prefix (cfp x_cfg) ++ [gc (bs "alice")]) (gc (bs "k1")) x_sk.
Proof. exact u_applies. Qed.
(** The CA opens a request for NEW; the client selects the challenge and sends the first CHALLENGE. *)
Theorem C77_opens : forall E g S (ops : store_ops S) file pb h c x s0 ri i ca0 ci identity kid sk nb na ctype life params, env_laws E -> config_fits g ->
  client_run E file pb h c (NWait x WNew) -> has_applied E c x s0 ri (identity ++ [gc (bs "KEY"); kid]) sk nb na -> holds (cl_pib c) identity kid sk ->
  ca_at E g ops ca0 -> applies E g s0 ri i (identity ++ [gc (bs "KEY"); kid]) sk nb na ->
  let creq := cert_request E sk ri (identity ++ [gc (bs "KEY"); kid]) nb na in let id := id_for E (ca_idkey ca0) (c_name creq) in
  pending ops ca0 id = None -> length (ri_salt0 (ci_ri ci)) = 32%nat -> selects_first g c (ci_lines ci) ctype life params ->
  exists ca d c' x', answers E g ops ca0 i x ca d /\ client_run E file pb ((ci, Some (CData d)) :: h) c' (NWait x' WChallenge) /\
    in_round E g ops ctype life id sk creq None (ci_ri ci) params ca c' x'.
Proof. exact client_opens. Qed.
Print Assumptions C77_opens.
Example C77_opens_case : exists h c x, client_run toy w_file [] h c (NWait x WNew) /\ has_applied toy c x u_req0 (x_rin x_now 3) (x_id ++ [gc (bs "KEY"); gc (bs "k1")]) x_sk x_now (x_now + sec 3600) /\
  holds (cl_pib c) x_id (gc (bs "k1")) x_sk /\ ca_at toy x_cfg (db_ops toy) x_ca0 /\ applies toy x_cfg u_req0 (x_rin x_now 3) (x_inputs x_now 1) (x_id ++ [gc (bs "KEY"); gc (bs "k1")]) x_sk x_now (x_now + sec 3600) /\
  pending (db_ops toy) x_ca0 u_id = None /\ selects_first x_cfg c (ci_lines (w_ci 4 [])) (bs "email") 300 [(bs "email", bs "alice@example")].
Proof. exact u_opens. Qed.
(** What else the CA does meanwhile, restarts included, does not disturb the client. *)
Theorem C77_meanwhile : forall E g S (ops : store_ops S) ctype life id sk creq ph ri params ca c x ca', in_round E g ops ctype life id sk creq ph ri params ca c x ->
  quiet E g ops id (o_pub E sk) ca ca' -> in_round E g ops ctype life id sk creq ph ri params ca' c x.
Proof. exact client_meanwhile. Qed.
Print Assumptions C77_meanwhile.
Example C77_meanwhile_case : exists ca c x ca', in_round toy x_cfg (db_ops toy) (bs "email") 300 u_id x_sk u_creq None (x_rin x_now 4) [(bs "email", bs "alice@example")] ca c x /\ quiet toy x_cfg (db_ops toy) u_id (o_pub toy x_sk) ca ca' /\ ca_idkey ca' = bs "new key".
Proof. destruct u_round as (h & c & x & ca & _ & R). exists ca, c, x, (restart (db_ops toy) (bs "new key") ca). split; [exact R|]. split; [apply v_restart|reflexivity]. Qed.
(** The CA answers the first CHALLENGE, having made a code; the client sends the code the user types. *)
Theorem C77_asked : forall E g S (ops : store_ops S) file pb h c x ctype life id sk creq ri params ca i ci code typed, env_laws E -> config_fits g -> code_life ctype life ->
  client_run E file pb h c (NWait x WChallenge) -> in_round E g ops ctype life id sk creq None ri params ca c x -> begins_with ctype params ->
  gen_code (in_words i) = Ok code -> in_script_ok i = true -> (0 <= in_t2 i)%Z -> be_enc 8 (ri_iv ri) <> rnd_iv i -> clock_ok (ci_ri ci) -> types ci typed -> blen typed < 2 ^ 30 ->
  exists ca' d c' x', answers E g ops ca i x ca' d /\ client_run E file pb ((ci, Some (CData d)) :: h) c' (NWait x' WChallenge) /\
    in_round E g ops ctype life id sk creq (Some (code, O, in_t2 i)) (ci_ri ci) [(bs "code", typed)] ca' c' x'.
Proof. exact client_asked. Qed.
Print Assumptions C77_asked.
Example C77_asked_case : (exists h c x ca, client_run toy w_file [] h c (NWait x WChallenge) /\
    in_round toy x_cfg (db_ops toy) (bs "email") 300 u_id x_sk u_creq None (x_rin x_now 4) [(bs "email", bs "alice@example")] ca c x) /\
  code_life (bs "email") 300 /\ gen_code (in_words (x_inputs (x_now + sec 10) 2)) = Ok x_code /\ clock_ok (ci_ri (w_ci 5 [])) /\ types (w_ci 5 [bs "000000"]) (bs "000000").
Proof. split; [exact u_round|]. split; [exact life_email|]. split; [meets|]. split; [exact (u_clock 5)|reflexivity]. Qed.
(** After a wrong code, with tries left, the client sends the next code the user types. *)
Theorem C77_wrong : forall E g S (ops : store_ops S) file pb h c x ctype life id sk creq code k t ri given ca i ci typed, env_laws E -> config_fits g -> code_life ctype life ->
  client_run E file pb h c (NWait x WChallenge) -> in_round E g ops ctype life id sk creq (Some (code, k, t)) ri [(bs "code", given)] ca c x -> given <> code -> blen given < 2 ^ 30 -> (k < 2)%nat ->
  (t <= in_t1 i < t + sec life - 1000 /\ 0 <= in_t2 i)%Z -> clock_ok (ci_ri ci) -> types ci typed -> blen typed < 2 ^ 30 ->
  exists ca' d c' x', answers E g ops ca i x ca' d /\ client_run E file pb ((ci, Some (CData d)) :: h) c' (NWait x' WChallenge) /\
    in_round E g ops ctype life id sk creq (Some (code, Datatypes.S k, in_t2 i)) (ci_ri ci) [(bs "code", typed)] ca' c' x'.
Proof. exact client_wrong. Qed.
Print Assumptions C77_wrong.
(** After the third wrong code the client leaves with status 1; its keys stay. *)
Theorem C77_third : forall E g S (ops : store_ops S) file pb h c x ctype life id sk creq code t ri given ca i ci, env_laws E -> config_fits g -> code_life ctype life ->
  client_run E file pb h c (NWait x WChallenge) -> in_round E g ops ctype life id sk creq (Some (code, 2%nat, t)) ri [(bs "code", given)] ca c x -> given <> code -> blen given < 2 ^ 30 ->
  (t <= in_t1 i < t + sec life - 1000)%Z ->
  exists ca' d c', answers E g ops ca i x ca' d /\ client_run E file pb ((ci, Some (CData d)) :: h) c' (NExit 1) /\ pending ops ca' id = None /\ cl_pib c' = cl_pib c.
Proof. exact client_third. Qed.
Print Assumptions C77_third.
(** The state before the third code, reached by applying [C77_asked] and, twice, [C77_wrong]: with a wrong one typed for [C77_third], with the right one for [C77_installed]. *)
Example C77_third_case : exists h c x ca, client_run toy w_file [] h c (NWait x WChallenge) /\
  in_round toy x_cfg (db_ops toy) (bs "email") 300 u_id x_sk u_creq (Some (x_code, 2%nat, x_now + sec 30)%Z) (x_rin x_now 7) [(bs "code", bs "111111")] ca c x /\ bs "111111" <> x_code.
Proof. destruct (u_waiting (bs "111111")) as (h & c & x & ca & R & I); [meets|]. exists h, c, x, ca. split; [exact R|]. split; [exact I|discriminate]. Qed.
(** After the right code the client asks for the certificate; the CA server gives it, whatever the CA does in between
    (as in C76), and the client installs it and nothing else, and is done. *)
Theorem C77_installed : forall E g S (ops : store_ops S) file pb h c x ctype life id sk creq code k t ri tr ca i ci profile v, env_laws E -> config_fits g -> code_life ctype life ->
  client_run E file pb h c (NWait x WChallenge) -> in_round E g ops ctype life id sk creq (Some (code, k, t)) ri [(bs "code", code)] ca c x -> ca_history E g ops tr ca ->
  (t <= in_t1 i < t + sec life - 1000)%Z -> clock_ok (ci_ri ci) -> d_name profile = profile_name g v ->
  exists ca' es d c' y cert, let st := HStep ca (EvInterest i x) es ca' in
    step E g ops ca (EvInterest i x) = Some (ca', es) /\ puts es = [d] /\ client_run E file pb ((ci, Some (CData d)) :: h) c' (NWait y WCert) /\ certifies E g creq cert /\
    (forall later ca2 newer, steps E g ops ca' later ca2 -> Forall (fun e => ~ restarts (h_ev e)) later -> announced later newer -> (length newer < 100)%nat ->
      Forall (fun c0 => ~ begins (c_name cert) (full_name E c0)) newer -> serve E profile (server_cache (seen (tr ++ st :: later))) (i_name y) = Some (SCert cert)) /\
    forall ci2, exists c2, client_run E file pb ((ci2, Some (CCert cert)) :: (ci, Some (CData d)) :: h) c2 NDone /\ cl_installed c2 = [cert].
Proof. exact client_done. Qed.
Print Assumptions C77_installed.
Example C77_installed_case : exists h c x ca tr, client_run toy w_file [] h c (NWait x WChallenge) /\
  in_round toy x_cfg (db_ops toy) (bs "email") 300 u_id x_sk u_creq (Some (x_code, 2%nat, x_now + sec 30)%Z) (x_rin x_now 7) [(bs "code", x_code)] ca c x /\ ca_history toy x_cfg (db_ops toy) tr ca.
Proof. destruct (u_waiting x_code) as (h & c & x & ca & R & I); [meets|]. destruct (u_history _ _ _ _ _ _ I) as (tr & H). exists h, c, x, ca, tr. auto. Qed.
