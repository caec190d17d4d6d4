(** Concrete CAs of one account for the examples beside the theorems, and counterexamples. *)
From Verif Require Export HostFacts TraceWitness.
Local Open Scope N_scope.

(** A CA named /ndn_site beside the one named /ndn/site; and one named /ndn/club. *)
Definition y_cfg_of (prefix : name) : ca_cfg :=
  let keyloc := prefix ++ [c_KEY; gc (bs "k0")] in
  let c := x_self x_ca_sk keyloc 0 1000000000 in
  CaCfg (Config (Profile prefix [] (bs "Another CA") [] 864000 None [CH_PIN] (Some c)) [] []) (ChalCfg (bs "send.sh") (Ok [])) c x_ca_sk keyloc.
Definition y_cfg : ca_cfg := Eval vm_compute in y_cfg_of [gc (bs "ndn_site")].
Definition v_cfg : ca_cfg := Eval vm_compute in y_cfg_of [gc (bs "ndn"); gc (bs "club")].
Definition y_gs (k : nat) : ca_cfg := match k with O => x_cfg | _ => y_cfg end.
Definition v_gs (k : nat) : ca_cfg := match k with O => x_cfg | _ => v_cfg end.
Definition y_keys (k : nat) : bytes := bs "id key".

(** The requester applies to /ndn/site and takes the challenge at /ndn_site. *)
Definition with_profile (p : profile) (s : rstate) : rstate :=
  RState p (rs_type s) (rs_identity s) (rs_id s) (rs_status s) (rs_ctype s) (rs_cstatus s) (rs_tries s) (rs_fresh s) (rs_issued s) (rs_fwd s) (rs_ecdh s) (rs_key s) (rs_eiv s) (rs_div s) (rs_nonce s) (rs_keypair s).
Definition y_sel : rstate := Eval vm_compute in with_profile (cfp y_cfg) x_sel.
Definition y_chal1 := Eval vm_compute in gen_challenge toy y_sel (x_rin x_now 3) [].
Definition y_evs1 : list (nat * event) :=
  [(0%nat, EvInterest (x_inputs x_now 1) x_new_interest); (1%nat, EvInterest (x_inputs (x_now + sec 10) 2) (the_interest y_chal1))].
Definition y_tr1 := Eval vm_compute in match host_run toy y_gs (host_init y_keys) y_evs1 with Some (_, tr) => tr | None => [] end.
Definition y_put2 : data := Eval vm_compute in the_put (snd (nth 1 y_tr1 (0%nat, EvRestart [], []))).
Definition y_req3 : rstate := Eval vm_compute in ok_state (on_challenge_response toy (snd y_chal1) (x_rin x_now 4) y_put2) x_req1.
Definition y_chal2 := Eval vm_compute in gen_challenge toy y_req3 (x_rin x_now 5) [(K_CODE, x_code)].
Definition y_evs : list (nat * event) := y_evs1 ++ [(1%nat, EvInterest (x_inputs (x_now + sec 20) 3) (the_interest y_chal2))].
Definition y_tr := Eval vm_compute in match host_run toy y_gs (host_init y_keys) y_evs with Some (_, tr) => tr | None => [] end.
Lemma run_trace : forall E gs h evs tr, match host_run E gs h evs with Some (_, t) => t = tr | None => False end -> exists h', host_run E gs h evs = Some (h', tr).
Proof. intros E gs h evs tr H. destruct (host_run E gs h evs) as [[h' t]|]; [|destruct H]. subst t. exists h'. reflexivity. Qed.
Lemma y_runs : exists h, host_run toy y_gs (host_init y_keys) y_evs = Some (h, y_tr).
Proof. apply run_trace. vm_compute. reflexivity. Qed.
Definition y_issued : cert := Eval vm_compute in
  match flat_map (fun e => match e with EIssue c => [c] | _ => [] end) (snd (nth 2 y_tr (0%nat, EvRestart [], []))) with c :: _ => c | [] => x_creq end.
Lemma y_mixed : exists gs keys evs h tr es c, p_prefix (cfp (gs 0%nat)) <> p_prefix (cfp (gs 1%nat)) /\ host_run toy gs (host_init keys) evs = Some (h, tr) /\
  In es (map snd (events_of 1 tr)) /\ In (EIssue c) es /\ is_prefix (p_prefix (cfp (gs 1%nat))) (c_name c) = false /\
  forall es' r, In es' (map snd (events_of 1 tr)) -> ~ In (EAdd r) es'.
Proof.
  destruct y_runs as [h R]. exists y_gs, y_keys, y_evs, h, y_tr, (snd (nth 2 y_tr (0%nat, EvRestart [], []))), y_issued.
  split; [discriminate|]. split; [exact R|]. split; [right; left; reflexivity|]. split; [vm_compute; tauto|]. split; [reflexivity|].
  intros es' r IN IA. vm_compute in IN. destruct IN as [<-|[<-|[]]]; repeat (destruct IA as [IA|IA]; [discriminate IA|]); exact IA.
Qed.

(** Two CAs with their own files. *)
Definition v_evs : list (nat * event) := [(0%nat, EvInterest (x_inputs x_now 1) x_new_interest); (1%nat, EvRestart (bs "id key 2")); (0%nat, EvInterest (x_inputs (x_now + sec 10) 2) (the_interest x_chal1))].
Definition v_tr := Eval vm_compute in match host_run toy v_gs (host_init y_keys) v_evs with Some (_, tr) => tr | None => [] end.
Lemma v_runs : exists h, host_run toy v_gs (host_init y_keys) v_evs = Some (h, v_tr).
Proof. apply run_trace. vm_compute. reflexivity. Qed.
Lemma v_case : exists h, name_fits (p_prefix (cfp (v_gs 0%nat))) /\ (forall j, In j (map fst v_evs) -> j <> 0%nat -> ca_file toy v_gs j <> ca_file toy v_gs 0) /\
  host_run toy v_gs (host_init y_keys) v_evs = Some (h, v_tr) /\ length (events_of 0 v_tr) = 2%nat /\ length (events_of 1 v_tr) = 1%nat.
Proof.
  destruct v_runs as [h R]. exists h. split; [exact (ch_prefix _ _ _ _ _ x_h1)|]. split.
  - intros j [<-|[<-|[<-|[]]]] N; try (elim N; reflexivity). vm_compute. discriminate.
  - split; [exact R|]. split; reflexivity.
Qed.

(** A request waiting for a code. *)
Lemma x_waiting : exists f r cs, ca_history toy x_cfg (db_ops toy) [x_e1; x_e2] (fst x_ca2) /\ f (db_file toy (p_prefix (cfp x_cfg))) = ca_store (fst x_ca2) /\
  o_of_uri toy (bs "/ndn/site") = Some (p_prefix (cfp x_cfg)) /\ pending (db_ops toy) (fst x_ca2) z_id = Some r /\ rq_cs r = Some cs /\ sec_get (bs "code") (cs_secrets cs) = Some x_code.
Proof.
  exists (fun _ => ca_store (fst x_ca2)). do 2 eexists. split; [exact x_h2|]. split; [reflexivity|]. split; [vm_compute; reflexivity|]. split; [vm_compute; reflexivity|]. split; reflexivity.
Qed.
