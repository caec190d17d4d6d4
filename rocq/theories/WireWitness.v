(** Examples for the wire format. *)
From Verif Require Import TraceWitness CryptoFacts.
From Verif Require Import WireFacts.
From Verif Require Export Spec_Wire.
Local Open Scope N_scope.

Lemma j_replies : ca_history toy x_cfg (db_ops toy) ([x_e1; x_e2] ++ [x_e3]) (fst x_ca3) /\ (forall k, p_maxsuffix (cfp x_cfg) = Some k -> k < 2 ^ 64) /\
  handles x_e3 (x_inputs (x_now + sec 20) 3) (the_interest x_chal2) /\ exists d, In (EPut d) (h_effs x_e3) /\ fits (d_content d).
Proof.
  split; [exact x_h3|]. split; [intros k Q; vm_compute in Q; first [discriminate Q|injection Q as <-; reflexivity]|]. split; [left; reflexivity|].
  eexists. split; [right; left; reflexivity|]. vm_compute. reflexivity.
Qed.
Lemma j_profile : exists s' es d, step toy x_cfg (db_ops toy) x_ca0 (EvProfile (x_inputs x_now 1)) = Some (s', es) /\ In (EProfile d) es /\ fits (d_content d).
Proof. do 3 eexists. split; [vm_compute; reflexivity|]. split; [left; reflexivity|]. vm_compute. reflexivity. Qed.
Lemma j_name : wf_name x_keyname /\ fits (name_wire x_keyname) /\ x_keyname <> [].
Proof. split; [repeat (apply Forall_cons; [repeat split; vm_compute; reflexivity || discriminate|]); apply Forall_nil|]. split; [vm_compute; reflexivity|discriminate]. Qed.
Lemma j_new : exists x s', gen_new toy x_req0 (x_rin x_now 1) x_keyname x_sk x_now (x_now + sec 3600) = (Ok (Some x), s') /\ forall w, i_params x = Some w -> fits w.
Proof. do 2 eexists. split; [vm_compute; reflexivity|]. intros w Q. cbn [i_params] in Q. injection Q as <-. vm_compute. reflexivity. Qed.
Lemma j_revoke : exists x, gen_revoke toy x_req0 (rq_cert x_r2) = Some x /\ forall w, i_params x = Some w -> fits w.
Proof. eexists. split; [vm_compute; reflexivity|]. intros w Q. cbn [i_params] in Q. injection Q as <-. vm_compute. reflexivity. Qed.
Lemma j_challenge : (rs_eiv x_req3 = [] \/ iv12 (rs_eiv x_req3)) /\
  exists x s', gen_challenge toy x_req3 (x_rin x_now 5) [(bs "code", bs "000000")] = (Ok x, s') /\ forall w, i_params x = Some w -> fits w.
Proof. split; [right; reflexivity|]. do 2 eexists. split; [vm_compute; reflexivity|]. intros w Q. cbn [i_params] in Q. injection Q as <-. vm_compute. reflexivity. Qed.
Lemma j_cert : exists w, wire_cert toy x_ca_cert w.
Proof. exists (enc_tlv (cert_tlv toy x_ca_cert)). apply cert_wired. vm_compute. reflexivity. Qed.
