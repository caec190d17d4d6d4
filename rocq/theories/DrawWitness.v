(** The random values of the example runs. *)
From Verif Require Export DrawFacts TraceWitness.
Local Open Scope N_scope.

Definition dr_iv (es : list eff) : bytes := match wire_iv (d_content (the_put es)) with Some iv => iv | None => [] end.
(** A first and a later reply of one request. *)
Lemma dr_replies : ca_history toy x_cfg (db_ops toy) ([] ++ x_e1 :: [] ++ x_e2 :: [x_e3; x_e4]) (fst x_ca4) /\
  ca_history toy x_cfg (db_ops toy) ([] ++ x_e1 :: [x_e2] ++ x_e3 :: [x_e4]) (fst x_ca4) /\ adds z_id x_e1 /\
  reply_iv x_cfg z_id x_e2 (dr_iv (snd x_ca2)) /\ reply_iv x_cfg z_id x_e3 (dr_iv (snd x_ca3)).
Proof.
  split; [exact x_h4|]. split; [exact x_h4|]. split; [eexists; split; [left; reflexivity|vm_compute; reflexivity]|]. split.
  - exists (x_inputs (x_now + sec 10) 2), (the_interest x_chal1), (the_put (snd x_ca2)). split; [left; reflexivity|]. split; [names_tac|]. split; [right; left; reflexivity|vm_compute; reflexivity].
  - exists (x_inputs (x_now + sec 20) 3), (the_interest x_chal2), (the_put (snd x_ca3)). split; [left; reflexivity|]. split; [names_tac|]. split; [right; left; reflexivity|vm_compute; reflexivity].
Qed.
(** The request is accepted; the code and the nonce are stored. *)
Lemma dr_accepts : (exists r, In (EAdd r) (h_effs x_e1)) /\ handles x_e1 (x_inputs x_now 1) x_new_interest /\ answered x_e1 /\
  Forall fits (p_challenges (cfp x_cfg)) /\ fits (o_ecdh_pub toy (in_sk (x_inputs x_now 1))).
Proof.
  split; [eexists; left; reflexivity|]. split; [left; reflexivity|]. split; [vm_compute; discriminate|].
  split; [repeat (constructor; [apply fits_short; apply Nat.leb_le; vm_compute; reflexivity|]); constructor|]. apply fits_short. apply Nat.leb_le. vm_compute. reflexivity.
Qed.
Lemma dr_secrets : exists r0 r v r0' r' v', 
  handles x_e2 (x_inputs (x_now + sec 10) 2) (the_interest x_chal1) /\ names_request x_cfg z_id (the_interest x_chal1) /\ pending (db_ops toy) (h_pre x_e2) z_id = Some r0 /\ rq_cs r0 = None /\ stores_secret x_e2 r (bs "code") v /\
  handles p_e2 (x_inputs (x_now + sec 10) 2) (fst p_chal1) /\ names_request w_cfg z_id (fst p_chal1) /\ pending mem_ops (h_pre p_e2) z_id = Some r0' /\ rq_cs r0' = None /\ stores_secret p_e2 r' (bs "nonce") v'.
Proof.
  do 6 eexists. split; [left; reflexivity|]. split; [names_tac|]. split; [vm_compute; reflexivity|]. split; [reflexivity|].
  split; [split; [left; reflexivity|eexists; split; [reflexivity|left; reflexivity]]|].
  split; [left; reflexivity|]. split; [names_tac|]. split; [vm_compute; reflexivity|]. split; [reflexivity|].
  split; [left; reflexivity|eexists; split; [reflexivity|left; reflexivity]].
Qed.
