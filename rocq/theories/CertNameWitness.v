(** C101: somebody else's key under a name already certified. *)
From Verif Require Export TraceWitness Spec_Policy.
From Verif Require Import CaFacts EmailFacts.
Local Open Scope N_scope.

(** Mallory asks for alice's key name after alice got the certificate. *)
Definition m_sk : bytes := bs "mallory signing key".
Definition m_creq : cert := Eval vm_compute in cert_request toy m_sk (x_rin x_now 1) x_keyname x_now (x_now + sec 3600).
Definition m_new : interest := Eval vm_compute in signed_interest toy m_sk (x_prefix ++ [r_CA; gc (bs "NEW")]) (req_encode toy RT_NEW x_peer m_creq).
Definition m_id : bytes := Eval vm_compute in request_id_of toy (ca_idkey (fst w_ca3)) (c_name m_creq).
Definition m_key : bytes := Eval vm_compute in session_key toy (x_inputs (x_now + sec 30) 1) m_id x_peer.
Definition m_chal (eiv : bytes) (els : list tlv) : interest * bytes :=
  let (b, iv) := z_seal m_key m_id eiv 7003 (enc_tlvs els) in (z_interest m_sk m_id b, iv).
Definition m_pin := Eval vm_compute in m_chal [] [Tlv T_SelectedChallenge (bs "pin")].
Definition m_code := Eval vm_compute in m_chal (snd m_pin) (n_params x_code).
Definition m_ca4 := Eval vm_compute in w_go (fst w_ca3) (x_inputs (x_now + sec 30) 1) m_new.
Definition m_ca5 := Eval vm_compute in w_go (fst m_ca4) (x_inputs (x_now + sec 40) 2) (fst m_pin).
Definition m_ca6 := Eval vm_compute in w_go (fst m_ca5) (x_inputs (x_now + sec 50) 4) (fst m_code).
Definition m_ca7 := Eval vm_compute in w_go (fst m_ca5) (x_inputs (x_now + sec 50) 3) (fst m_code).
Lemma m_step4 : step toy w_cfg mem_ops (fst w_ca3) (EvInterest (x_inputs (x_now + sec 30) 1) m_new) = Some m_ca4.
Proof. vm_compute. reflexivity. Qed.
Lemma m_step5 : step toy w_cfg mem_ops (fst m_ca4) (EvInterest (x_inputs (x_now + sec 40) 2) (fst m_pin)) = Some m_ca5.
Proof. vm_compute. reflexivity. Qed.
Lemma m_step6 : step toy w_cfg mem_ops (fst m_ca5) (EvInterest (x_inputs (x_now + sec 50) 4) (fst m_code)) = Some m_ca6.
Proof. vm_compute. reflexivity. Qed.
Lemma m_step7 : step toy w_cfg mem_ops (fst m_ca5) (EvInterest (x_inputs (x_now + sec 50) 3) (fst m_code)) = Some m_ca7.
Proof. vm_compute. reflexivity. Qed.
Definition m_e4 := HStep (fst w_ca3) (EvInterest (x_inputs (x_now + sec 30) 1) m_new) (snd m_ca4) (fst m_ca4).
Definition m_e5 := HStep (fst m_ca4) (EvInterest (x_inputs (x_now + sec 40) 2) (fst m_pin)) (snd m_ca5) (fst m_ca5).
Definition m_e6 := HStep (fst m_ca5) (EvInterest (x_inputs (x_now + sec 50) 4) (fst m_code)) (snd m_ca6) (fst m_ca6).
Definition m_e7 := HStep (fst m_ca5) (EvInterest (x_inputs (x_now + sec 50) 3) (fst m_code)) (snd m_ca7) (fst m_ca7).
Lemma m_h5 : ca_history toy w_cfg mem_ops [w_e1; w_e2; w_e3; m_e4; m_e5] (fst m_ca5).
Proof. exact (history_more _ _ _ _ [_; _; _; _] _ _ _ _ (history_more _ _ _ _ [_; _; _] _ _ _ _ w_h3 (some_pair _ _ _ _ m_step4)) (some_pair _ _ _ _ m_step5)). Qed.
Lemma m_h6 : ca_history toy w_cfg mem_ops ([w_e1; w_e2] ++ w_e3 :: [m_e4; m_e5] ++ m_e6 :: []) (fst m_ca6).
Proof. exact (history_more _ _ _ _ [_; _; _; _; _] _ _ _ _ m_h5 (some_pair _ _ _ _ m_step6)). Qed.
Lemma m_h7 : ca_history toy w_cfg mem_ops ([w_e1; w_e2] ++ w_e3 :: [m_e4; m_e5] ++ m_e7 :: []) (fst m_ca7).
Proof. exact (history_more _ _ _ _ [_; _; _; _; _] _ _ _ _ m_h5 (some_pair _ _ _ _ m_step7)). Qed.

Lemma two_keys : exists g a st1 b st2 s c1 c2 keyname issuer v1 v2, ca_history toy g mem_ops (a ++ st1 :: b ++ [st2]) s /\
  In (EIssue c1) (h_effs st1) /\ In (EIssue c2) (h_effs st2) /\ c_name c1 = keyname ++ [issuer; v1] /\ c_name c2 = keyname ++ [issuer; v2] /\ v1 <> v2 /\
  public_key c1 <> public_key c2.
Proof.
  exists w_cfg, [w_e1; w_e2], w_e3, [m_e4; m_e5], m_e6, (fst m_ca6), (the_issued (snd w_ca3)), (the_issued (snd m_ca6)), x_keyname, (gc (bs "NDNCERT")), (version_comp 53), (version_comp 54).
  split; [exact m_h6|]. split; [left; reflexivity|]. split; [left; reflexivity|]. split; [vm_compute; reflexivity|]. split; [vm_compute; reflexivity|]. split; vm_compute; discriminate.
Qed.
Lemma same_name : exists g a st1 b st2 s c1 c2, ca_history toy g mem_ops (a ++ st1 :: b ++ [st2]) s /\
  In (EIssue c1) (h_effs st1) /\ In (EIssue c2) (h_effs st2) /\ c_name c1 = c_name c2 /\ public_key c1 <> public_key c2.
Proof.
  exists w_cfg, [w_e1; w_e2], w_e3, [m_e4; m_e5], m_e7, (fst m_ca7), (the_issued (snd w_ca3)), (the_issued (snd m_ca7)).
  split; [exact m_h7|]. split; [left; reflexivity|]. split; [left; reflexivity|]. split; vm_compute; [reflexivity|discriminate].
Qed.

Lemma random_offers : forall params ws ns n, offers toy params [Assign ARandom []] ws ns -> In n ns -> exists w, n = [gc (to_string_N w)].
Proof.
  intros params ws ns n H IN. inversion H as [|a l ws' ns1 ms K O1 O2|a l ws' ns1 ms K O1 O2]; subst; [|exfalso; apply K; reflexivity].
  inversion O2; subst. rewrite app_nil_r in IN. inversion O1; subst. destruct IN as [<-|[]]. eauto.
Qed.
Lemma not_offered : exists g tr st s c suffix kid issuer version, ca_history toy g mem_ops (tr ++ [st]) s /\ In (EIssue c) (h_effs st) /\
  c_name c = p_prefix (cfp g) ++ suffix ++ [gc (bs "KEY"); kid; issuer; version] /\
  forall params ws ns, offers toy params (assignments g) ws ns -> ~ In suffix ns.
Proof.
  exists w_cfg, [w_e1; w_e2], w_e3, (fst w_ca3), (the_issued (snd w_ca3)), [gc (bs "alice")], (gc (bs "k1")), (gc (bs "NDNCERT")), (version_comp 53).
  split; [exact w_h3|]. split; [left; reflexivity|]. split; [vm_compute; reflexivity|].
  intros params ws ns O IN. change (assignments w_cfg) with [Assign ARandom []] in O. destruct (random_offers _ _ _ _ O IN) as [w Q].
  injection Q as Q. pose proof (to_string_digits w) as D. rewrite <- Q in D. vm_compute in D. discriminate.
Qed.
