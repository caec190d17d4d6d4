(** A life of the CA server process: it starts, issues a certificate, is ended by a packet and starts again; and another
    in which a certificate takes the name of the discovery Interest. *)
From Verif Require Import ProcessFacts TraceWitness.
Local Open Scope N_scope.

(** Like [x_cfg], with names of up to three more components than the prefix. *)
Definition h_profile : profile :=
  Profile x_prefix [gc (bs "edge")] (bs "Example CA") [bs "email"; bs "name"] 864000 (Some 3) [CH_PIN; CH_EMAIL; CH_POSSESSION] (Some x_ca_cert).
Definition h_cfg : ca_cfg :=
  CaCfg (Config h_profile [] [Assign AParam [bs "name"]]) (ChalCfg (bs "send.sh") (Ok [x_anchor])) x_ca_cert x_ca_sk x_keyloc.
Definition o_step (repo : bool) (p : proc db) (ev : pevent) : proc db * list out :=
  match pstep toy h_cfg (db_ops toy) repo p ev with Some r => r | None => (p, []) end.
Definition o_0 : proc db := Eval vm_compute in Down (s_empty (db_ops toy)).
Definition o_v0 : pevent := PvStart (bs "id key") (x_inputs x_now 1).
Definition o_1 := Eval vm_compute in o_step false o_0 o_v0.
Definition o_v1 : pevent := PvInterest (x_inputs x_now 1) x_new_interest.
Definition o_2 := Eval vm_compute in o_step false (fst o_1) o_v1.
Definition o_v2 : pevent := PvInterest (x_inputs (x_now + sec 10) 2) (the_interest x_chal1).
Definition o_3 := Eval vm_compute in o_step false (fst o_2) o_v2.
Definition o_chal : res interest * rstate := Eval vm_compute in gen_challenge toy x_req3 (x_rin x_now 5) [(K_CODE, x_code)].
Definition o_v3 : pevent := PvInterest (x_inputs (x_now + sec 20) 3) (the_interest o_chal).
Definition o_4 := Eval vm_compute in o_step false (fst o_3) o_v3.
Definition o_v4 : pevent := PvInterest (x_inputs (x_now + sec 30) 4) z_new.
Definition o_5 := Eval vm_compute in o_step false (fst o_4) o_v4.

(** The requester asks for the name [prefix]/CA/INFO/32=metadata. *)
Definition h_keyname : name := x_prefix ++ [gc (bs "CA"); gc (bs "INFO"); Tlv 32 (bs "metadata"); c_KEY; gc (bs "k1")].
Definition h_new := Eval vm_compute in gen_new toy x_req0 (x_rin x_now 1) h_keyname x_sk x_now (x_now + sec 3600).
Definition h_new_interest : interest := Eval vm_compute in match fst h_new with Ok (Some i) => i | _ => Interest [] None None end.
Definition the_module (os : list out) : data := match module_packets os with d :: _ => d | [] => Data [] [] 0 None [] end.
Definition h_v1 : pevent := PvInterest (x_inputs x_now 1) h_new_interest.
Definition h_2 := Eval vm_compute in o_step false (fst o_1) h_v1.
Definition h_req2 : rstate := Eval vm_compute in ok_state (on_new_response toy (snd h_new) (x_rin x_now 2) (the_module (snd h_2))) x_req1.
Definition h_chal1 := Eval vm_compute in gen_challenge toy (snd (select_challenge h_req2 CH_PIN)) (x_rin x_now 3) [].
Definition h_v2 : pevent := PvInterest (x_inputs (x_now + sec 10) 2) (the_interest h_chal1).
Definition h_3 := Eval vm_compute in o_step false (fst h_2) h_v2.
Definition h_req3 : rstate := Eval vm_compute in ok_state (on_challenge_response toy (snd h_chal1) (x_rin x_now 4) (the_module (snd h_3))) x_req1.
Definition h_chal2 := Eval vm_compute in gen_challenge toy h_req3 (x_rin x_now 5) [(K_CODE, x_code)].
Definition h_v3 : pevent := PvInterest (x_inputs (x_now + sec 20) 3) (the_interest h_chal2).
Definition h_4 := Eval vm_compute in o_step false (fst h_3) h_v3.
Definition h_disc : interest := Eval vm_compute in match gen_discovery x_prefix with Ok x => x | _ => Interest [] None None end.
Definition h_v4 : pevent := PvInterest (x_inputs (x_now + sec 30) 4) h_disc.
Definition h_5 := Eval vm_compute in o_step false (fst h_4) h_v4.

Definition o_tr : list (sstep db) := [SStep o_0 o_v0 (snd o_1) (fst o_1); SStep (fst o_1) o_v1 (snd o_2) (fst o_2); SStep (fst o_2) o_v2 (snd o_3) (fst o_3); SStep (fst o_3) o_v3 (snd o_4) (fst o_4)].
Lemma o_one : forall p ev r, pstep toy h_cfg (db_ops toy) false p ev = Some r -> forall tr p0, psteps toy h_cfg (db_ops toy) false p0 tr p -> psteps toy h_cfg (db_ops toy) false p0 (tr ++ [SStep p ev (snd r) (fst r)]) (fst r).
Proof. intros p ev [p' os] ST tr p0 H. apply psteps_app. exists p. split; [exact H|]. econstructor; [exact ST|constructor]. Qed.
Lemma o_s0 : pstep toy h_cfg (db_ops toy) false o_0 o_v0 = Some o_1. Proof. vm_compute. reflexivity. Qed.
Lemma o_s1 : pstep toy h_cfg (db_ops toy) false (fst o_1) o_v1 = Some o_2. Proof. vm_compute. reflexivity. Qed.
Lemma o_s2 : pstep toy h_cfg (db_ops toy) false (fst o_2) o_v2 = Some o_3. Proof. vm_compute. reflexivity. Qed.
Lemma o_s3 : pstep toy h_cfg (db_ops toy) false (fst o_3) o_v3 = Some o_4. Proof. vm_compute. reflexivity. Qed.
Lemma o_s4 : pstep toy h_cfg (db_ops toy) false (fst o_4) o_v4 = Some o_5. Proof. vm_compute. reflexivity. Qed.
Lemma h_s1 : pstep toy h_cfg (db_ops toy) false (fst o_1) h_v1 = Some h_2. Proof. vm_compute. reflexivity. Qed.
Lemma h_s2 : pstep toy h_cfg (db_ops toy) false (fst h_2) h_v2 = Some h_3. Proof. vm_compute. reflexivity. Qed.
Lemma h_s3 : pstep toy h_cfg (db_ops toy) false (fst h_3) h_v3 = Some h_4. Proof. vm_compute. reflexivity. Qed.
Lemma h_s4 : pstep toy h_cfg (db_ops toy) false (fst h_4) h_v4 = Some h_5. Proof. vm_compute. reflexivity. Qed.
Lemma o_history : forall tr p, psteps toy h_cfg (db_ops toy) false o_0 tr p -> server_history toy h_cfg (db_ops toy) false tr p.
Proof. intros tr p H. constructor; [meets|meets|constructor|exact H]. Qed.
Lemma o_life : server_history toy h_cfg (db_ops toy) false o_tr (fst o_4).
Proof. apply o_history. apply (o_one _ _ _ o_s3 [_; _; _]), (o_one _ _ _ o_s2 [_; _]), (o_one _ _ _ o_s1 [_]), (o_one _ _ _ o_s0 []), psteps_nil. Qed.
Definition h_tr : list (sstep db) := [SStep o_0 o_v0 (snd o_1) (fst o_1); SStep (fst o_1) h_v1 (snd h_2) (fst h_2); SStep (fst h_2) h_v2 (snd h_3) (fst h_3); SStep (fst h_3) h_v3 (snd h_4) (fst h_4)].
Lemma h_life : server_history toy h_cfg (db_ops toy) false h_tr (fst h_4).
Proof. apply o_history. apply (o_one _ _ _ h_s3 [_; _; _]), (o_one _ _ _ h_s2 [_; _]), (o_one _ _ _ h_s1 [_]), (o_one _ _ _ o_s0 []), psteps_nil. Qed.

Definition run_ca (p : proc db) : ca_state db := match p with Running ca _ _ => ca | Down st => CaState st [] None end.
Definition run_profile (p : proc db) : data := match p with Running _ d _ => d | Down _ => Data [] [] 0 None [] end.
Definition run_cert (p : proc db) : cert := match p with Running _ _ (c :: _) => c | _ => x_ca_cert end.
Definition o_ca : ca_state db := Eval vm_compute in run_ca (fst o_4).
Definition o_d : data := Eval vm_compute in run_profile (fst o_4).
Definition o_c : cert := Eval vm_compute in run_cert (fst o_4).
Definition h_ca : ca_state db := Eval vm_compute in run_ca (fst h_4).
Definition h_c : cert := Eval vm_compute in run_cert (fst h_4).
Definition h_m : data := Eval vm_compute in the_module (snd h_5).
Lemma o_runs : server_history toy h_cfg (db_ops toy) false o_tr (Running o_ca o_d [o_c]).
Proof. exact o_life. Qed.
Lemma h_runs : server_history toy h_cfg (db_ops toy) false h_tr (Running h_ca o_d [h_c]).
Proof. exact h_life. Qed.
Lemma h_answers : pstep toy h_cfg (db_ops toy) false (Running h_ca o_d [h_c]) h_v4 = Some (Running h_ca o_d [h_c], [OServed (SCert h_c); OModule h_m]).
Proof. exact h_s4. Qed.
Lemma discovery_taken : exists tr ca d c i x m, server_history toy h_cfg (db_ops toy) false tr (Running ca d [c]) /\ gen_discovery (p_prefix (cfp h_cfg)) = Ok x /\
  pstep toy h_cfg (db_ops toy) false (Running ca d [c]) (PvInterest i x) = Some (Running ca d [c], [OServed (SCert c); OModule m]) /\
  forall d' y, d_name d' = c_name c -> gen_profile_interest d' <> Ok y.
Proof.
  exists h_tr, h_ca, o_d, h_c, (x_inputs (x_now + sec 30) 4), h_disc, h_m. split; [exact h_runs|]. split; [vm_compute; reflexivity|]. split; [exact h_answers|].
  intros d' y N H. unfold gen_profile_interest, metadata_decode in H. rewrite N in H. revert H. generalize (d_content d'). intros b. vm_compute. discriminate.
Qed.
Lemma server_killed : exists tr ca d cache i x st, server_history toy h_cfg (db_ops toy) false tr (Running ca d cache) /\ addressed h_cfg VNew (i_name x) /\
  pstep toy h_cfg (db_ops toy) false (Running ca d cache) (PvInterest i x) = Some (Down st, []).
Proof. eexists o_tr, o_ca, o_d, [o_c], _, z_new, _. split; [exact o_runs|]. split; [eexists; vm_compute; reflexivity|]. exact o_s4. Qed.
Lemma cert_unrouted : exists tr ca d c, server_history toy h_cfg (db_ops toy) false tr (Running ca d [c]) /\ ~ begins (registered h_cfg) (full_name toy c).
Proof. exists o_tr, o_ca, o_d, o_c. split; [exact o_runs|]. intros [r H]. vm_compute in H. discriminate H. Qed.
