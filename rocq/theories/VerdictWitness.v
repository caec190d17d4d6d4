(** Requests that are given up. *)
From Verif Require Export VerdictFacts TraceWitness FillWitness.
Local Open Scope N_scope.

(** The third wrong code. *)
Definition u_r4 : request := Eval vm_compute in pending_of (fst n_ca4) z_id.
Definition u_cs4 : cstate := Eval vm_compute in match rq_cs u_r4 with Some c => c | None => CState [] 0 0 0 [] end.
Lemma u_at3 : ca_at toy w_cfg mem_ops (fst n_ca3).
Proof. exact (ca_at_step _ _ _ _ _ _ _ _ (ca_at_step _ _ _ _ _ _ _ _ w_at1 (some_pair _ _ _ _ n_step2)) (some_pair _ _ _ _ n_step3)). Qed.
Lemma u_at4 : ca_at toy w_cfg mem_ops (fst n_ca4).
Proof. exact (ca_at_step _ _ _ _ _ _ _ _ u_at3 (some_pair _ _ _ _ n_step4)). Qed.
Lemma u_contains : contains toy u_r4 (fst n_chal4) (n_params (bs "000002")).
Proof. exists (enc_tlvs (n_params (bs "000002"))). split; [apply unsealed_iff; eexists; vm_compute; reflexivity|]. split; [discriminate|vm_compute; reflexivity]. Qed.
Lemma u_third : gives_up toy (cf_chal w_cfg) (x_inputs (x_now + sec 3700) 5) (fst n_chal4) u_r4 7.
Proof.
  apply (gu_failed _ _ _ _ _ (n_params (bs "000002")) (bs "pin")); [exact u_contains|selects_tac|].
  apply (fail_last_try _ _ _ _ _ _ u_cs4 (bs "000002") x_code); [discriminate|reflexivity| |reflexivity|discriminate|vm_compute; discriminate].
  eexists. eexists. split; [constructor|]. split; [right; reflexivity|]. split; [reflexivity|]. split; [reflexivity|]. vm_compute. reflexivity.
Qed.
Lemma u_reasons : exists d s', ca_at toy w_cfg mem_ops (fst n_ca4) /\ names_request w_cfg z_id (fst n_chal4) /\ pending mem_ops (fst n_ca4) z_id = Some u_r4 /\
  step toy w_cfg mem_ops (fst n_ca4) (EvInterest (x_inputs (x_now + sec 3700) 5) (fst n_chal4)) = Some (s', [EDelete z_id; EPut d]) /\ pending mem_ops s' z_id = None.
Proof.
  destruct (gives_up_drops (fst n_ca4) (x_inputs (x_now + sec 3700) 5) (fst n_chal4) z_id u_r4 7 u_at4 ltac:(names_tac) eq_refl ltac:(signed_tac) u_third) as (s' & d & ST & _ & P).
  exists d, s'. split; [exact u_at4|]. split; [names_tac|]. split; [reflexivity|]. auto.
Qed.

(** A proof that does not verify, and parameters that do not decrypt. *)
Definition u_params : list tlv := p_proof (bs "no signature").
Definition u_chal := Eval vm_compute in z_chal (snd p_chal1) u_params.
Lemma u_proof : gives_up toy (cf_chal w_cfg) (x_inputs (x_now + sec 20) 3) (fst u_chal) p_r2 4.
Proof.
  apply (gu_failed _ _ _ _ _ u_params (bs "possession")); [exists (enc_tlvs u_params); split; [apply unsealed_iff; eexists; vm_compute; reflexivity|]; split; [discriminate|vm_compute; reflexivity]|selects_tac|].
  assert (NC : forall v, ~ pair_in u_params (bs "issued-cert") v) by (apply last_none; vm_compute; reflexivity).
  apply (fail_proof _ _ _ _ _ [x_anchor] p_cs2 x_cred (rnd_nonce (x_inputs (x_now + sec 10) 2)) (bs "no signature"));
    [reflexivity|intros (v & Q & _); exact (NC v Q)|discriminate|reflexivity|split; vm_compute; reflexivity|exact fw_wf|vm_compute; reflexivity| |split; [apply last_some; vm_compute; reflexivity|discriminate]|vm_compute; reflexivity|vm_compute; reflexivity].
  intros c (v & (a & b & Q & _) & _). apply (NC v). exists a, b. exact Q.
Qed.
Definition u_junk : interest := Eval vm_compute in z_interest x_sk z_id (bs "junk").
Lemma u_unreadable : gives_up toy (cf_chal w_cfg) (x_inputs (x_now + sec 20) 3) u_junk p_r2 4.
Proof. apply gu_unreadable. intros pt U. apply unsealed_iff in U as (dv & U). vm_compute in U. discriminate. Qed.
Lemma u_drops : ca_at toy w_cfg mem_ops (fst n_ca4) /\ names_request w_cfg z_id (fst n_chal4) /\ pending mem_ops (fst n_ca4) z_id = Some u_r4 /\ signed_by toy (fst n_chal4) (public_key (rq_cert u_r4)) /\
    gives_up toy (cf_chal w_cfg) (x_inputs (x_now + sec 3700) 5) (fst n_chal4) u_r4 7 /\
  ca_at toy w_cfg mem_ops (fst p_ca2) /\ names_request w_cfg z_id (fst u_chal) /\ pending mem_ops (fst p_ca2) z_id = Some p_r2 /\ signed_by toy (fst u_chal) (public_key (rq_cert p_r2)) /\
    gives_up toy (cf_chal w_cfg) (x_inputs (x_now + sec 20) 3) (fst u_chal) p_r2 4 /\
  names_request w_cfg z_id u_junk /\ signed_by toy u_junk (public_key (rq_cert p_r2)) /\ gives_up toy (cf_chal w_cfg) (x_inputs (x_now + sec 20) 3) u_junk p_r2 4.
Proof.
  split; [exact u_at4|]. split; [names_tac|]. split; [reflexivity|]. split; [signed_tac|]. split; [exact u_third|].
  split; [exact p_at2|]. split; [names_tac|]. split; [reflexivity|]. split; [signed_tac|]. split; [exact u_proof|]. split; [names_tac|]. split; [signed_tac|exact u_unreadable].
Qed.
