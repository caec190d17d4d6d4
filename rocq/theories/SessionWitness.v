(** Concrete sessions for the examples beside the theorems. *)
From Verif Require Export SessionFacts TraceWitness RequesterWitness.
Local Open Scope N_scope.

Definition v_id : bytes := Eval vm_compute in request_id_of toy (ca_idkey x_ca0) (c_name x_creq).
Lemma v_fits : config_fits x_cfg.
Proof. split; [exact x_sane|]. meets. Qed.
Lemma v_applies : applies toy x_cfg x_req0 (x_rin x_now 1) (x_inputs x_now 1) x_keyname x_sk x_now (x_now + sec 3600).
Proof.
  constructor.
  - exists x_profile, (bs "alice ephemeral"), (repeat x00 8). split; reflexivity.
  - reflexivity.
  - exists x_ca_cert. split; [reflexivity|vm_compute; reflexivity].
  - exists [gc (bs "alice")], (gc (bs "k1")). split; [reflexivity|]. split; [discriminate|]. intros k K. vm_compute in K. injection K as <-. vm_compute. discriminate.
  - eexists _, _. split; [vm_compute; reflexivity|]. meets.
  - eexists _, _. split; [reflexivity|]. unfold period_policy. meets.
  - meets.
Qed.
Lemma v_creq : cert_request toy x_sk (x_rin x_now 1) x_keyname x_now (x_now + sec 3600) = x_creq.
Proof. vm_compute. reflexivity. Qed.
Lemma v_new : pending (db_ops toy) x_ca0 v_id = None.
Proof. reflexivity. Qed.
Lemma v_open : forall ctype life, exists ca s, session toy x_cfg (db_ops toy) ctype life v_id x_sk x_creq None ca s.
Proof.
  intros ctype life. rewrite <- v_creq.
  destruct (open_ok toy x_cfg db (db_ops toy) ctype life x_ca0 x_req0 (x_rin x_now 1) (x_rin x_now 2) (x_inputs x_now 1) x_keyname x_sk x_now (x_now + sec 3600)
              toy_laws v_fits x_at0 v_applies) as (ca & es & s & _ & SE); [rewrite v_creq; exact v_new|reflexivity|].
  rewrite v_creq in SE |- *. exists ca, s. exact SE.
Qed.
(** The CA process is restarted. *)
Lemma v_restart : forall id pk ca, quiet toy x_cfg (db_ops toy) id pk ca (restart (db_ops toy) (bs "new key") ca).
Proof.
  intros id pk ca. exists [HStep ca (EvRestart (bs "new key")) [] (restart (db_ops toy) (bs "new key") ca)]. split; [econstructor; [reflexivity|constructor]|]. constructor; [|constructor]. cbn [h_ev]. split; [|intros _; constructor].
  intros i x H. destruct H as [H|[n [key H]]]; discriminate H.
Qed.
Lemma v_clock : clock_ok (x_rin x_now 4).
Proof. unfold clock_ok. meets. Qed.
(** One wrong code has been tried, and the CA has been restarted before and after it. *)
Lemma v_pin : exists ca s, session toy x_cfg (db_ops toy) (bs "pin") 3600 v_id x_sk x_creq (Some (x_code, 1%nat, x_now + sec 20)%Z) ca s.
Proof.
  destruct (v_open (bs "pin") 3600) as (ca & s & SE). pose proof (se_quiet _ _ _ _ _ _ _ _ _ _ _ _ SE (v_restart _ _ _)) as SE0.
  destruct (pin_start toy x_cfg db (db_ops toy) v_id x_sk x_creq _ s (x_rin x_now 3) (x_rin x_now 4) (x_inputs (x_now + sec 10) 2) x_code toy_laws v_fits SE0) as (ca2 & s2 & d & r & _ & _ & SE2 & _); try exact v_clock; [meets..|].
  pose proof (se_quiet _ _ _ _ _ _ _ _ _ _ _ _ SE2 (v_restart _ _ _)) as SE3.
  destruct (wrong_ok toy x_cfg db (db_ops toy) (bs "pin") 3600 v_id x_sk x_creq x_code 0 _ _ s2 (x_rin x_now 5) (x_rin x_now 4) (x_inputs (x_now + sec 20) 3) (bs "000000") toy_laws v_fits life_pin SE3) as (ca4 & s4 & d4 & r4 & _ & SE4 & _);
    try exact v_clock; [meets..|lia|]. eauto.
Qed.
Lemma v_email : exists ca s, session toy x_cfg (db_ops toy) (bs "email") 300 v_id x_sk x_creq (Some (x_code, 0%nat, x_now + sec 10)%Z) ca s.
Proof.
  destruct (v_open (bs "email") 300) as (ca & s & SE).
  destruct (email_start toy x_cfg db (db_ops toy) v_id x_sk x_creq _ s (x_rin x_now 3) (x_rin x_now 4) (x_inputs (x_now + sec 10) 2) (bs "alice@example.com") x_code toy_laws v_fits SE) as (ca2 & s2 & d & r & cmd & _ & _ & SE2 & _);
    try exact v_clock; [meets..|]. eauto.
Qed.
(** The valid proof, sent the way the library sends it. *)
Definition v_proof : list tlv := Eval vm_compute in [Tlv T_ParameterKey (bs "proof"); Tlv T_ParameterValue p_sig].
Definition v_chal2 : interest := Eval vm_compute in fst (z_chal (snd p_chal1) v_proof).
Lemma v_case : ca_at toy w_cfg mem_ops (fst p_ca2) /\ names_request w_cfg z_id v_chal2 /\ pending mem_ops (fst p_ca2) z_id = Some p_r2 /\ signed_by toy v_chal2 (public_key (rq_cert p_r2)) /\
  step_payload (bs "possession") ST_CHALLENGE (bs "need-proof") [(bs "proof", p_sig)] v_proof /\ acceptable toy p_r2 v_chal2 v_proof.
Proof.
  split; [exact p_at2|]. split; [exists 8; eexists; split; [vm_compute; reflexivity|reflexivity]|]. split; [vm_compute; reflexivity|]. split; [eexists; split; vm_compute; reflexivity|].
  split; [constructor|acceptable_tac].
Qed.

(** ** The possession challenge under the name the CA knows *)
Lemma v_possession_start : (exists w, p_start = start_params w /\ block_from_value w = Some (cert_tlv toy x_cred)) /\ data_decode toy (cert_tlv toy x_cred) = Some x_cred /\ c_content x_cred <> None /\
  ca_at toy w_cfg mem_ops (fst w_ca1) /\ names_request w_cfg z_id (fst p_chal1) /\ pending mem_ops (fst w_ca1) z_id = Some p_r1 /\ rq_status p_r1 = ST_BEFORE /\
  signed_by toy (fst p_chal1) (public_key (rq_cert p_r1)) /\ acceptable toy p_r1 (fst p_chal1) p_start /\ trusted toy (cf_chal w_cfg) x_cred.
Proof.
  split; [eexists; split; [reflexivity|vm_compute; reflexivity]|]. split; [vm_compute; reflexivity|]. split; [discriminate|]. split; [exact w_at1|]. split; [exists 8; eexists; split; [vm_compute; reflexivity|reflexivity]|].
  split; [vm_compute; reflexivity|]. split; [reflexivity|]. split; [eexists; split; vm_compute; reflexivity|]. split; [acceptable_tac|].
  exists [x_anchor], x_anchor. eexists. split; [reflexivity|]. split; [left; reflexivity|]. split; [vm_compute; reflexivity|]. split; [first [left; vm_compute; reflexivity|right; vm_compute; reflexivity]|vm_compute; reflexivity].
Qed.
Lemma v_possession_proof : p_proof p_sig = proof_params p_sig /\ ca_at toy w_cfg mem_ops (fst p_ca2) /\ names_request w_cfg z_id (fst p_chal2) /\ pending mem_ops (fst p_ca2) z_id = Some p_r2 /\ rq_cs p_r2 = Some p_cs2 /\ rq_type p_r2 = RT_NEW /\
  signed_by toy (fst p_chal2) (public_key (rq_cert p_r2)) /\ acceptable toy p_r2 (fst p_chal2) (p_proof p_sig) /\ proves toy p_cs2 x_cred (rnd_nonce (x_inputs (x_now + sec 10) 2)) /\
  credential_in toy p_start x_cred /\ cert_ok x_cred = true /\ o_pubkey_ok toy (public_key x_cred) = true /\ (exists anchors, cc_anchors (cf_chal w_cfg) = Ok anchors) /\
  p_sig <> [] /\ o_verify toy (public_key x_cred) (MRaw (rnd_nonce (x_inputs (x_now + sec 10) 2))) p_sig = true.
Proof.
  split; [reflexivity|]. split; [exact p_at2|]. split; [exists 8; eexists; split; [vm_compute; reflexivity|reflexivity]|]. split; [vm_compute; reflexivity|]. split; [reflexivity|]. split; [reflexivity|].
  split; [eexists; split; vm_compute; reflexivity|]. split; [acceptable_tac|]. split; [split; vm_compute; reflexivity|].
  split; [eexists _, (cert_tlv toy x_cred); split; [exists [Tlv T_SelectedChallenge (bs "possession")], []; reflexivity|split; vm_compute; reflexivity]|].
  split; [vm_compute; reflexivity|]. split; [vm_compute; reflexivity|]. split; [eexists; reflexivity|]. split; [discriminate|vm_compute; reflexivity].
Qed.
