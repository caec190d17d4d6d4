(** PROBE from end to end, and fetching the certificate a session ends in: theorems C75-C76. *)
From Verif Require Import EndToEndWitness.
Local Open Scope N_scope.

(** ** C75: what a requester learns from PROBE is what the CA's policies yield *)
(** The requester knows the CA's prefix and key; [params] is any multimap that fits the wire. *)
Theorem C75_probe : forall E g S (ops : store_ops S) s i p c params rs ns, sig_laws E -> p_prefix p = p_prefix (cfp g) -> p_cert p = Some c -> public_key c = o_pub E (cf_sk g) ->
  mm_sorted params -> Forall (fun kv => fits (fst kv) /\ fits (snd kv)) params -> targets E params (cf_redirect (cf g)) rs -> offers E params (assignments g) (in_words64 i) ns ->
  (rs <> [] \/ ns <> []) -> p_prefix (cfp g) <> [] -> Forall (probe_fits (p_maxsuffix (cfp g))) (map (app (p_prefix (cfp g))) ns) -> Forall name_fits rs ->
  (forall k, p_maxsuffix (cfp g) = Some k -> k < 2 ^ 64) ->
  exists d, on_interest E g ops s i (gen_probe E p params) = ([EPut d], Ok tt) /\
    on_probe_response E d p = Ok (map (fun n => (p_prefix (cfp g) ++ n, narrow_suffix (p_maxsuffix (cfp g)))) ns, rs).
Proof. exact probe_end_to_end. Qed.
Print Assumptions C75_probe.
(** If the policies yield nothing the requester gets an exception. *)
Theorem C75_nothing : forall E g S (ops : store_ops S) s i p c params, sig_laws E -> p_prefix p = p_prefix (cfp g) -> p_cert p = Some c -> public_key c = o_pub E (cf_sk g) ->
  mm_sorted params -> Forall (fun kv => fits (fst kv) /\ fits (snd kv)) params -> targets E params (cf_redirect (cf g)) [] -> offers E params (assignments g) (in_words64 i) [] ->
  exists d, on_interest E g ops s i (gen_probe E p params) = ([EPut d], Ok tt) /\ on_probe_response E d p = Exn.
Proof. exact probe_end_nothing. Qed.
Print Assumptions C75_nothing.
Example C75_case : p_prefix x_profile = p_prefix (cfp y_cfg) /\ p_cert x_profile = Some x_ca_cert /\ public_key x_ca_cert = o_pub toy (cf_sk y_cfg) /\
  mm_sorted y_params /\ Forall (fun kv => fits (fst kv) /\ fits (snd kv)) y_params /\
  targets toy y_params (cf_redirect (cf y_cfg)) [full_name toy x_anchor; full_name toy x_cred] /\ offers toy y_params (assignments y_cfg) (in_words64 y_inputs) y_names.
Proof. destruct e_probe as (_ & H1 & H2 & H3 & H4 & H5). do 5 (split; [assumption|]). split; [exact y_targets|exact y_offers]. Qed.
Example C75_nothing_case : p_prefix x_profile = p_prefix (cfp x_cfg) /\ public_key x_ca_cert = o_pub toy (cf_sk x_cfg) /\ mm_sorted [] /\
  targets toy [] (cf_redirect (cf x_cfg)) [] /\ offers toy [] (assignments x_cfg) (in_words64 y_inputs) [].
Proof. split; [reflexivity|]. split; [reflexivity|]. split; [exact I|exact y_nothing]. Qed.

(** ** C76: the certificate a session ends in can be fetched *)
(** The requester gives the right code in time.  From then on, whatever the CA does, until it restarts, a hundred
    more certificates are announced, or one whose full name also begins with the name, the CA server answers the
    requester's fetch Interest with the certificate issued, and the requester accepts it. *)
Theorem C76_fetched : forall E g S (ops : store_ops S) ctype life id sk creq code k t tr ca s ri rj i profile v, env_laws E -> config_fits g -> code_life ctype life ->
  ca_history E g ops tr ca -> session E g ops ctype life id sk creq (Some (code, k, t)) ca s -> (t <= in_t1 i < t + sec life - 1000)%Z -> clock_ok rj ->
  d_name profile = profile_name g v ->
  exists ca' es s' x c, let st := HStep ca (EvInterest i x) es ca' in
    round E g ops ca s ri rj i ctype [(bs "code", code)] = Some (ca', es, s') /\ ca_history E g ops (tr ++ [st]) ca' /\
    certifies E g creq c /\ public_key c = o_pub E sk /\
    forall later ca2 newer, steps E g ops ca' later ca2 -> Forall (fun e => ~ restarts (h_ev e)) later -> announced later newer -> (length newer < 100)%nat ->
      Forall (fun c' => ~ begins (c_name c) (full_name E c')) newer ->
      serve E profile (server_cache (seen (tr ++ st :: later))) (i_name (fst (gen_cert_fetch s'))) = Some (SCert c) /\ on_cert_fetch c = Ok c.
Proof. exact session_fetched. Qed.
Print Assumptions C76_fetched.
(** The server without a repo forgets every certificate when it restarts. *)
Theorem C76_restart : forall E S (tr : list (hstep S)) st profile n c, restarts (h_ev st) -> serve E profile (server_cache (seen (tr ++ [st]))) n <> Some (SCert c).
Proof. exact restart_loses. Qed.
Print Assumptions C76_restart.
Example C76_case : (exists tr ca s, ca_history toy x_cfg (db_ops toy) tr ca /\
    session toy x_cfg (db_ops toy) (bs "pin") 3600 v_id x_sk x_creq (Some (x_code, 1%nat, x_now + sec 20)%Z) ca s) /\ code_life (bs "pin") 3600 /\
  (x_now + sec 20 <= in_t1 (x_inputs (x_now + sec 30) 4) < x_now + sec 20 + sec 3600 - 1000)%Z /\ clock_ok (x_rin x_now 4).
Proof. split; [exact e_history|]. split; [exact life_pin|]. split; [meets|exact v_clock]. Qed.
