(** A concrete revocation. *)
From Verif Require Export RevokeFacts TraceWitness RequesterWitness SessionWitness.
Local Open Scope N_scope.

Definition rv_req0 : rstate := request_init x_profile RT_REVOKE (bs "alice ephemeral") (repeat x00 8).
Definition rv_req1 : rstate := Eval vm_compute in snd (gen_new toy rv_req0 (x_rin x_now 1) x_keyname x_sk x_now (x_now + sec 3600)).
Definition rv_id : bytes := Eval vm_compute in request_id_of toy (ca_idkey v_ca0) (c_name w_cert).
Lemma rv_fits : config_fits w_cfg.
Proof. split; [exact v_sane|]. meets. Qed.
Lemma rv_revocable : revocable toy w_cfg (x_inputs (x_now + sec 40) 5) w_cert.
Proof.
  constructor.
  - exists [gc (bs "alice")], (gc (bs "k1")). eexists _, _. split; [vm_compute; reflexivity|]. split; [discriminate|]. intros k K. vm_compute in K. injection K as <-. vm_compute. discriminate.
  - vm_compute. reflexivity.
  - eexists _, _. split; [vm_compute; reflexivity|]. meets.
  - meets.
Qed.
Lemma rv_prepared : prepared toy w_cfg rv_req1 w_cert x_sk.
Proof.
  split; [|split; [reflexivity|split; [exists x_ca_cert; split; [reflexivity|vm_compute; reflexivity]|vm_compute; reflexivity]]].
  exists x_profile, (bs "alice ephemeral"), (repeat x00 8), (x_rin x_now 1), x_keyname, x_now, (x_now + sec 3600)%Z. eexists. split; [reflexivity|]. vm_compute. reflexivity.
Qed.
Lemma rv_new : pending mem_ops v_ca0 rv_id = None.
Proof. vm_compute. reflexivity. Qed.
Lemma rv_open : forall ctype life, exists ca s, revocation toy w_cfg mem_ops ctype life rv_id x_sk w_cert None ca s.
Proof.
  intros ctype life. destruct (revoke_open toy w_cfg mem mem_ops ctype life v_ca0 rv_req1 (x_rin x_now 2) (x_inputs (x_now + sec 40) 5) w_cert x_sk toy_laws rv_fits v_at0 rv_revocable rv_prepared rv_new eq_refl)
    as (ca & es & s & _ & SE). exists ca, s. exact SE.
Qed.
Lemma rv_code : gen_code (in_words (x_inputs (x_now + sec 50) 6)) = Ok x_code.
Proof. vm_compute. reflexivity. Qed.
Lemma rv_wrong : exists ca s, revocation toy w_cfg mem_ops (bs "pin") 3600 rv_id x_sk w_cert (Some (x_code, 1%nat, x_now + sec 60)%Z) ca s.
Proof.
  destruct (rv_open (bs "pin") 3600%Z) as (ca & s & SE).
  destruct (revoke_start toy w_cfg mem mem_ops (bs "pin") 3600%Z rv_id x_sk w_cert ca s (x_rin x_now 3) (x_rin x_now 4) (x_inputs (x_now + sec 50) 6) [] x_code toy_laws rv_fits life_pin SE bw_pin rv_code) as (ca1 & es1 & s1 & _ & SE1 & _); [meets|meets|meets|exact v_clock|].
  destruct (revoke_wrong toy w_cfg mem mem_ops (bs "pin") 3600%Z rv_id x_sk w_cert x_code 0 _ ca1 s1 (x_rin x_now 3) (x_rin x_now 4) (x_inputs (x_now + sec 60) 7) (bs "111111") toy_laws rv_fits life_pin SE1) as (ca2 & es2 & s2 & _ & SE2 & _); [meets|meets|meets|exact v_clock|exact Nat.lt_0_2|].
  exists ca2, s2. exact SE2.
Qed.
Lemma rv_history : exists tr ca s, ca_history toy w_cfg mem_ops tr ca /\ revocation toy w_cfg mem_ops (bs "pin") 3600 rv_id x_sk w_cert (Some (x_code, 1%nat, x_now + sec 60)%Z) ca s.
Proof.
  destruct rv_wrong as (ca & s & SE). destruct (revocation_linked toy w_cfg mem mem_ops _ _ _ _ _ _ ca s toy_laws rv_fits (fun _ => life_pin) SE) as [LK _].
  destruct (history_of _ _ _ _ _ (lk_at _ _ _ _ _ _ _ LK)) as (tr & H). exists tr, ca, s. auto.
Qed.
(** The CA accepts the revocation of a requester that has not called [genNewInterest], which accepts the reply. *)
Definition rv_x0 : interest := Eval vm_compute in match gen_revoke toy rv_req0 w_cert with Some x => x | None => v_interest end.
Definition rv_ca1 := Eval vm_compute in w_go v_ca0 (x_inputs (x_now + sec 40) 5) rv_x0.
Definition rv_d : data := Eval vm_compute in hd (reply_data toy w_cfg [] []) (puts (snd rv_ca1)).
Definition rv_req2 : rstate := Eval vm_compute in snd (on_new_response toy rv_req0 (x_rin x_now 2) rv_d).
Lemma rv_stuck : revoking toy w_cfg mem_ops v_ca0 rv_req0 (x_rin x_now 2) (x_inputs (x_now + sec 40) 5) w_cert = Some (fst rv_ca1, snd rv_ca1, rv_req2, p_challenges (cfp w_cfg)) /\
  without_new toy x_profile RT_REVOKE (bs "alice ephemeral") rv_req2 /\ pending mem_ops (fst rv_ca1) rv_id <> None /\ fst (select_challenge rv_req2 (bs "pin")) = Ok [].
Proof.
  split; [vm_compute; reflexivity|]. split; [|split; [vm_compute; discriminate|vm_compute; reflexivity]].
  apply (wn_on_new toy x_profile RT_REVOKE (bs "alice ephemeral") rv_req0 (x_rin x_now 2) rv_d (Ok (p_challenges (cfp w_cfg)))); [apply wn_made|vm_compute; reflexivity].
Qed.
Lemma rv_keyloc : wf_name (cf_keyloc w_cfg).
Proof. repeat first [apply Forall_nil | apply Forall_cons]; (split; [|split]; vm_compute; congruence). Qed.
