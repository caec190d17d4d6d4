(** Concrete cases for C120. *)
From Verif Require Export ReconfigFacts TraceWitness RequesterWitness.
Local Open Scope N_scope.

(** The CA of the other examples, started again with another key and narrower limits: one second of validity, no name
    below the prefix, the possession challenge only. *)
Definition rc_sk : bytes := bs "second ca key".
Definition rc_cert : cert := Eval vm_compute in x_self rc_sk (x_prefix ++ [c_KEY; gc (bs "second")]) 0 1000000000.
Definition rc_cfg : ca_cfg :=
  CaCfg (Config (Profile x_prefix [gc (bs "edge")] (bs "Example CA") [bs "email"; bs "name"] 1 (Some 0) [CH_POSSESSION] (Some rc_cert)) [] [Assign AParam [bs "name"]])
        (ChalCfg (bs "send.sh") (Ok [x_anchor])) rc_cert rc_sk (x_prefix ++ [c_KEY; gc (bs "second")]).
Definition rc_s0 : ca_state db := Eval vm_compute in restart (db_ops toy) (bs "third id key") (fst x_ca3).
Definition rc_e0 : hstep db := HStep (fst x_ca3) (EvRestart (bs "third id key")) [] rc_s0.
Definition rc_i : inputs := x_inputs (x_now + sec 30) 4.
Definition rc_ca1 : ca_state db * list eff := Eval vm_compute in
  match step toy rc_cfg (db_ops toy) rc_s0 (EvInterest rc_i (the_interest x_chal3)) with Some r => r | None => (rc_s0, []) end.
Lemma rc_step : step toy rc_cfg (db_ops toy) rc_s0 (EvInterest rc_i (the_interest x_chal3)) = Some rc_ca1.
Proof. vm_compute. reflexivity. Qed.
Definition rc_e1 : hstep db := HStep rc_s0 (EvInterest rc_i (the_interest x_chal3)) (snd rc_ca1) (fst rc_ca1).
Definition rc_issued : cert := Eval vm_compute in the_issued (snd rc_ca1).
Definition rc_before : list (ca_cfg * hstep db) := [(x_cfg, x_e1); (x_cfg, x_e2); (x_cfg, x_e3); (rc_cfg, rc_e0)].
Definition rc_tail : list (ca_cfg * hstep db) := [(x_cfg, x_e2); (x_cfg, x_e3); (rc_cfg, rc_e0); (rc_cfg, rc_e1)].

Lemma rc_tail_steps : csteps toy (db_ops toy) x_cfg (fst x_ca1) rc_tail rc_cfg (fst rc_ca1).
Proof.
  apply csteps_event; [exact (some_pair _ _ _ _ x_step2)|]. apply csteps_event; [exact (some_pair _ _ _ _ x_step3)|].
  apply (csteps_change toy (db_ops toy) x_cfg rc_cfg (fst x_ca3) (bs "third id key")); [reflexivity|]. change (restart (db_ops toy) (bs "third id key") (fst x_ca3)) with rc_s0.
  apply csteps_event; [exact (some_pair _ _ _ _ rc_step)|]. constructor.
Qed.
Lemma rc_hist : reconfigured toy (db_ops toy) (rc_before ++ [(rc_cfg, rc_e1)]) rc_cfg (fst rc_ca1).
Proof.
  constructor; [meets|meets|constructor|]. exists x_cfg, (bs "id key"). apply (csteps_event toy (db_ops toy) x_cfg x_ca0 _ _ (fst x_ca1)); [exact (some_pair _ _ _ _ x_step1)|].
  exact rc_tail_steps.
Qed.
Lemma rc_hist1 : reconfigured toy (db_ops toy) [(x_cfg, x_e1)] x_cfg (fst x_ca1).
Proof.
  constructor; [meets|meets|constructor|]. exists x_cfg, (bs "id key"). apply (csteps_event toy (db_ops toy) x_cfg x_ca0 _ _ (fst x_ca1)); [exact (some_pair _ _ _ _ x_step1)|constructor].
Qed.
Lemma rc_in : In (EIssue rc_issued) (h_effs rc_e1).
Proof. left. reflexivity. Qed.
Lemma rc_no_add : no_add_in z_id rc_tail.
Proof.
  repeat (constructor; [intros (r & IN & _); cbn [snd rc_e0 rc_e1 x_e2 x_e3 h_effs] in IN; vm_compute in IN;
    repeat (destruct IN as [IN|IN]; [discriminate IN|]); exact IN|]). constructor.
Qed.
(** One certificate under the narrower limits: neither its name nor its validity period is within them. *)
Lemma old_policy : exists tr g st s c nb na, reconfigured toy (db_ops toy) (tr ++ [(g, st)]) g s /\ In (EIssue c) (h_effs st) /\ c_validity c = Some (nb, na) /\
  ~ name_policy g (c_name c) /\ (forall now, (now <= nb)%Z -> ~ period_policy g now nb na) /\ ~ In (bs "pin") (p_challenges (cfp g)).
Proof.
  exists rc_before, rc_cfg, rc_e1, (fst rc_ca1), rc_issued. do 2 eexists. split; [exact rc_hist|]. split; [exact rc_in|]. split; [vm_compute; reflexivity|]. split; [|split].
  - intros (suffix & kid & issuer & version & _ & NE & LIM). specialize (LIM 0 eq_refl). destruct suffix; [apply NE; reflexivity|]. cbn [length] in LIM. lia.
  - intros now L (_ & B & _). change (p_maxvalid (cfp rc_cfg)) with 1%Z in B. unfold sec in B. lia.
  - intros [Q|[]]. discriminate Q.
Qed.

(** A wrong code under the first configuration, the right one under the second. *)
Lemma rc_none : ~ (answered x_e2 /\ exists given, compares toy x_cfg (db_ops toy) z_id x_e2 given).
Proof. intros (_ & given & i & params & ty & r & cs & P & C & _). vm_compute in P. injection P as <-. vm_compute in C. discriminate C. Qed.
Lemma rc_idle : ~ (answered rc_e0 /\ exists given, compares toy rc_cfg (db_ops toy) z_id rc_e0 given).
Proof. intros [AN _]. apply AN. reflexivity. Qed.
Lemma rc_tally : tally (fun gs => answered (snd gs) /\ exists given, compares toy (fst gs) (db_ops toy) z_id (snd gs) given) rc_tail 2.
Proof. unfold rc_tail. constructor 3; [exact rc_none|]. constructor 2; [cbn [fst snd]; compares_tac|]. constructor 3; [exact rc_idle|]. constructor 2; [cbn [fst snd]; compares_tac|constructor]. Qed.

(** After the certificate, the first configuration again, and the last Interest once more. *)
Definition rc_s2 : ca_state db := Eval vm_compute in restart (db_ops toy) (bs "fourth id key") (fst rc_ca1).
Definition rc_e2 : hstep db := HStep (fst rc_ca1) (EvRestart (bs "fourth id key")) [] rc_s2.
Definition rc_i3 : inputs := x_inputs (x_now + sec 40) 5.
Definition rc_ca3 : ca_state db * list eff := Eval vm_compute in
  match step toy x_cfg (db_ops toy) rc_s2 (EvInterest rc_i3 (the_interest x_chal3)) with Some r => r | None => (rc_s2, []) end.
Lemma rc_step3 : step toy x_cfg (db_ops toy) rc_s2 (EvInterest rc_i3 (the_interest x_chal3)) = Some rc_ca3.
Proof. vm_compute. reflexivity. Qed.
Definition rc_e3 : hstep db := HStep rc_s2 (EvInterest rc_i3 (the_interest x_chal3)) (snd rc_ca3) (fst rc_ca3).
Lemma csteps_join : forall S E (ops : store_ops S) a g s g1 s1 b g2 s2, csteps E ops g s a g1 s1 -> csteps E ops g1 s1 b g2 s2 -> csteps E ops g s (a ++ b) g2 s2.
Proof. intros S E ops a g s g1 s1 b g2 s2 H. revert b g2 s2. induction H; intros b gx sx K; cbn [app]; [exact K|apply csteps_event; eauto|apply csteps_change; eauto|apply (csteps_file _ _ _ a); eauto|eapply csteps_key; eauto]. Qed.
Lemma rc_hist3 : reconfigured toy (db_ops toy) (rc_before ++ (rc_cfg, rc_e1) :: [(x_cfg, rc_e2)] ++ (x_cfg, rc_e3) :: []) x_cfg (fst rc_ca3).
Proof.
  destruct rc_hist as [L1 L2 L3 _]. constructor; [exact L1|meets|exact L3|]. exists x_cfg, (bs "id key").
  change (rc_before ++ (rc_cfg, rc_e1) :: [(x_cfg, rc_e2)] ++ (x_cfg, rc_e3) :: []) with ((x_cfg, x_e1) :: rc_tail ++ [(x_cfg, rc_e2); (x_cfg, rc_e3)]).
  apply (csteps_event toy (db_ops toy) x_cfg x_ca0 _ _ (fst x_ca1)); [exact (some_pair _ _ _ _ x_step1)|].
  apply (csteps_join _ _ _ _ _ _ _ _ _ _ _ rc_tail_steps). apply (csteps_change toy (db_ops toy) rc_cfg x_cfg (fst rc_ca1) (bs "fourth id key")); [reflexivity|].
  change (restart (db_ops toy) (bs "fourth id key") (fst rc_ca1)) with rc_s2. apply csteps_event; [exact (some_pair _ _ _ _ rc_step3)|constructor].
Qed.
Lemma rc_once : handles rc_e1 rc_i (the_interest x_chal3) /\ names_request rc_cfg z_id (the_interest x_chal3) /\ answered rc_e1 /\ no_add_in z_id [(x_cfg, rc_e2)] /\
  handles rc_e3 rc_i3 (the_interest x_chal3) /\ answered rc_e3.
Proof.
  split; [left; reflexivity|]. split; [names_tac|]. split; [vm_compute; discriminate|]. split; [constructor; [intros (r & [] & _)|constructor]|]. split; [left; reflexivity|vm_compute; discriminate].
Qed.
(** The initialization vectors of the replies before and after the change. *)
Definition rc_iv (es : list eff) : bytes := match wire_iv (d_content (the_put es)) with Some iv => iv | None => [] end.
Lemma rc_ivs : reply_iv x_cfg z_id x_e3 (rc_iv (snd x_ca3)) /\ reply_iv rc_cfg z_id rc_e1 (rc_iv (snd rc_ca1)) /\ no_add_in z_id [(rc_cfg, rc_e0)].
Proof.
  split; [|split; [|constructor; [intros (r & [] & _)|constructor]]].
  - exists (x_inputs (x_now + sec 20) 3), (the_interest x_chal2), (the_put (snd x_ca3)). split; [left; reflexivity|]. split; [names_tac|]. split; [right; left; reflexivity|vm_compute; reflexivity].
  - exists rc_i, (the_interest x_chal3), (the_put (snd rc_ca1)). split; [left; reflexivity|]. split; [names_tac|]. split; [right; right; left; reflexivity|vm_compute; reflexivity].
Qed.
(** A profile published before the change, and one after it. *)
Definition rc_p1 : ca_state db * list eff := Eval vm_compute in match step toy x_cfg (db_ops toy) x_ca0 (EvProfile (x_inputs x_now 1)) with Some r => r | None => (x_ca0, []) end.
Definition rc_p2 : ca_state db := Eval vm_compute in restart (db_ops toy) (bs "third id key") (fst rc_p1).
Definition rc_p3 : ca_state db * list eff := Eval vm_compute in match step toy rc_cfg (db_ops toy) rc_p2 (EvProfile (x_inputs x_now 2)) with Some r => r | None => (x_ca0, []) end.
Lemma rc_profile : exists tr d d0, reconfigured toy (db_ops toy) tr rc_cfg (fst rc_p3) /\ ca_prof (fst rc_p3) = Some d /\ ca_prof (fst rc_p1) = Some d0 /\ d_content d0 <> d_content d /\
  public_key (cf_cert rc_cfg) = o_pub toy (cf_sk rc_cfg) /\ fits (p_info (cfp rc_cfg)) /\ Forall fits (p_probe_keys (cfp rc_cfg)) /\
  (forall k, c_keyloc (cf_cert rc_cfg) = Some k -> fits (bs "Issued by " ++ o_to_uri toy k)) /\ wf_cert (cf_cert rc_cfg) /\ cert_ok (cf_cert rc_cfg) = true /\ fits (enc_tlv (cert_tlv toy (cf_cert rc_cfg))).
Proof.
  exists [(x_cfg, HStep x_ca0 (EvProfile (x_inputs x_now 1)) (snd rc_p1) (fst rc_p1)); (rc_cfg, HStep (fst rc_p1) (EvRestart (bs "third id key")) [] rc_p2); (rc_cfg, HStep rc_p2 (EvProfile (x_inputs x_now 2)) (snd rc_p3) (fst rc_p3))].
  do 2 eexists. split; [constructor; [meets|meets|constructor|]; exists x_cfg, (bs "id key")|].
  { apply (csteps_event toy (db_ops toy) x_cfg x_ca0 _ _ (fst rc_p1)); [vm_compute; reflexivity|].
    apply (csteps_change toy (db_ops toy) x_cfg rc_cfg (fst rc_p1) (bs "third id key")); [reflexivity|]. change (restart (db_ops toy) (bs "third id key") (fst rc_p1)) with rc_p2.
    apply csteps_event; [vm_compute; reflexivity|constructor]. }
  split; [vm_compute; reflexivity|]. split; [vm_compute; reflexivity|]. split; [vm_compute; discriminate|].
  split; [vm_compute; reflexivity|]. split; [meets|]. split; [repeat constructor|]. split; [intros k Q; vm_compute in Q; injection Q as <-; vm_compute; reflexivity|].
  split; [meets|]. split; [vm_compute; reflexivity|meets].
Qed.

(** The possession challenge, started with a credential of a trust anchor that is taken out of the file before the proof. *)
Definition rc_gone : ca_cfg := with_anchors (Ok [x_ca_cert]) w_cfg.
Definition rc_q3 : ca_state mem * list eff := Eval vm_compute in
  match step toy rc_gone mem_ops (fst p_ca2) (EvInterest (x_inputs (x_now + sec 20) 3) (fst p_chal2)) with Some r => r | None => (w_ca0, []) end.
Lemma rc_q_step : step toy rc_gone mem_ops (fst p_ca2) (EvInterest (x_inputs (x_now + sec 20) 3) (fst p_chal2)) = Some rc_q3.
Proof. vm_compute. reflexivity. Qed.
Lemma old_anchor : exists tr start g1 g st s c id key c0 i0 params0 cred i params, reconfigured toy mem_ops (tr ++ [(g1, start)] ++ [(g, st)]) g s /\ In (EIssue c) (h_effs st) /\
  asks toy g1 id key c0 start i0 params0 (bs "possession") /\ credential_in toy params0 cred /\ asks toy g id key c0 st i params (bs "possession") /\ ~ trusted toy (cf_chal g) cred.
Proof.
  exists [(w_cfg, w_e1)], (HStep (fst w_ca1) (EvInterest (x_inputs (x_now + sec 10) 2) (fst p_chal1)) (snd p_ca2) (fst p_ca2)), w_cfg, rc_gone,
    (HStep (fst p_ca2) (EvInterest (x_inputs (x_now + sec 20) 3) (fst p_chal2)) (snd rc_q3) (fst rc_q3)), (fst rc_q3), (the_issued (snd rc_q3)).
  exists z_id, (rq_key p_r2), (rq_cert p_r2), (x_inputs (x_now + sec 10) 2), p_start, x_cred, (x_inputs (x_now + sec 20) 3), (p_proof p_sig).
  split; [|split; [left; reflexivity|]].
  - constructor; [meets|meets|constructor|]. exists w_cfg, (bs "id key"). cbn [app].
    apply (csteps_event toy mem_ops w_cfg w_ca0 _ _ (fst w_ca1)); [exact (some_pair _ _ _ _ w_step1)|]. apply csteps_event; [exact (some_pair _ _ _ _ p_step2)|].
    apply (csteps_file _ _ _ (Ok [x_ca_cert])). apply csteps_event; [exact (some_pair _ _ _ _ rc_q_step)|constructor].
  - split; [asks_tac|]. split; [|split; [asks_tac|]].
    + eexists _, (cert_tlv toy x_cred). split; [exists [Tlv T_SelectedChallenge (bs "possession")], []; reflexivity|split; vm_compute; reflexivity].
    + intros (anchors & an & loc & A & I & K & N & _). vm_compute in A. injection A as <-. cbn [In] in I. destruct I as [<-|[]].
      vm_compute in K. injection K as <-. destruct N as [N|N]; vm_compute in N; discriminate.
Qed.
