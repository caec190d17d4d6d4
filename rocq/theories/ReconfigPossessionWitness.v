(** Concrete cases for C129. *)
From Coq Require Import Lia.
From Verif Require Import BytesFacts.
From Verif Require Export ReconfigPossessionFacts ReconfigSessionWitness.
Local Open Scope N_scope.

(** The possession challenge is withdrawn: it is no longer offered and there is no trust anchor. *)
Definition pq_cfg : ca_cfg :=
  CaCfg (Config (Profile x_prefix [gc (bs "moved")] (bs "Example CA") [bs "name"] 1 (Some 0) [bs "pin"] (Some x_ca_cert)) [] [])
        (ChalCfg (bs "other.sh") (Ok [])) x_ca_cert x_ca_sk x_keyloc.
Definition pq_pending (s : ca_state db) (id : bytes) : request :=
  match pending (db_ops toy) s id with Some r => r | None => Request [] [] 0 0 x_ca_cert [] [] [] [] None end.
Definition pq_i : inputs := x_inputs (x_now + sec 10) 2.
Definition pq_ca2 := Eval vm_compute in x_go (fst x_ca1) pq_i (fst p_chal1).
Definition pq_r1 : request := Eval vm_compute in pq_pending (fst x_ca1) z_id.
Definition pq_r2 : request := Eval vm_compute in pq_pending (fst pq_ca2) z_id.
Definition pq_ca3 := restart (db_ops toy) (bs "new key") (fst pq_ca2).
Lemma pq_step1 : step toy x_cfg (db_ops toy) x_ca0 (EvInterest (x_inputs x_now 1) x_new_interest) = Some x_ca1.
Proof. vm_compute. reflexivity. Qed.
Lemma pq_step2 : step toy x_cfg (db_ops toy) (fst x_ca1) (EvInterest pq_i (fst p_chal1)) = Some pq_ca2.
Proof. vm_compute. reflexivity. Qed.
Lemma pq_h1 : exists tr, reconfigured toy (db_ops toy) tr x_cfg (fst x_ca1).
Proof. eapply (r_at_step _ _ _ _ _ _ (fst x_ca1) (snd x_ca1)); [exists []; exact rs_start0|]. rewrite pq_step1. apply f_equal. apply surjective_pairing. Qed.
Lemma pq_h2 : exists tr, reconfigured toy (db_ops toy) tr x_cfg (fst pq_ca2).
Proof. eapply (r_at_step _ _ _ _ _ _ (fst pq_ca2) (snd pq_ca2)); [exact pq_h1|]. rewrite pq_step2. apply f_equal. apply surjective_pairing. Qed.
Lemma pq_presents : pending (db_ops toy) (fst x_ca1) z_id = Some pq_r1 /\ presents toy x_cfg z_id pq_r1 (fst p_chal1) x_cred.
Proof.
  split; [vm_compute; reflexivity|]. constructor.
  - exists 8; eexists; split; [vm_compute; reflexivity|reflexivity].
  - reflexivity.
  - eexists; split; vm_compute; reflexivity.
  - exists (enc_tlv (cert_tlv toy x_cred)), (cert_tlv toy x_cred). split; [acceptable_tac|split; vm_compute; reflexivity].
  - split; [vm_compute; reflexivity|split; [discriminate|vm_compute; reflexivity]].
  - exists [x_anchor], x_anchor. eexists. split; [reflexivity|]. split; [left; reflexivity|]. split; [vm_compute; reflexivity|]. split; [first [left; vm_compute; reflexivity|right; vm_compute; reflexivity]|vm_compute; reflexivity].
Qed.
(** The server is started again without the challenge; the requester answers. *)
Lemma pq_responds : quiet_change toy (db_ops toy) z_id (public_key (rq_cert pq_r1)) x_cfg (fst pq_ca2) pq_cfg pq_ca3 /\ pending (db_ops toy) (fst pq_ca2) z_id = Some pq_r2 /\
  responds toy pq_cfg z_id pq_r2 (fst p_chal2) x_cred (rnd_nonce pq_i) p_sig /\ cc_anchors (cf_chal pq_cfg) = Ok [] /\ rq_type pq_r1 = RT_NEW.
Proof.
  split; [apply rs_change; reflexivity|]. split; [vm_compute; reflexivity|]. split; [|split; reflexivity]. constructor.
  - exists 8; eexists; split; [vm_compute; reflexivity|reflexivity].
  - eexists; split; vm_compute; reflexivity.
  - acceptable_tac.
  - split; [discriminate|vm_compute; reflexivity].
Qed.
(** Started again with a configuration whose anchor file cannot be loaded. *)
Lemma pq_lost : exists tr g s i x id r cs c nonce sig, reconfigured toy (db_ops toy) tr g s /\ pending (db_ops toy) s id = Some r /\ rq_cs r = Some cs /\ proves toy cs c nonce /\ responds toy g id r x c nonce sig /\
  cc_anchors (cf_chal g) = Exn /\ on_interest toy g (db_ops toy) s i x = ([], Exn).
Proof.
  destruct (change_r_at toy _ (db_ops toy) z_id (public_key (rq_cert pq_r1)) x_cfg (fst pq_ca2) rs_cfg pq_ca3 pq_h2 (rs_change x_cfg rs_cfg z_id (public_key (rq_cert pq_r1)) (fst pq_ca2) eq_refl)) as [tr H].
  exists tr, rs_cfg, pq_ca3, (x_inputs (x_now + sec 3610) 3), (fst p_chal2), z_id, pq_r2, p_cs2, x_cred, (rnd_nonce pq_i), p_sig. split; [exact H|]. split; [vm_compute; reflexivity|]. split; [reflexivity|]. split; [split; vm_compute; reflexivity|]. split; [|split; [reflexivity|vm_compute; reflexivity]]. constructor.
  - exists 8; eexists; split; [vm_compute; reflexivity|reflexivity].
  - eexists; split; vm_compute; reflexivity.
  - acceptable_tac.
  - split; [discriminate|vm_compute; reflexivity].
Qed.
