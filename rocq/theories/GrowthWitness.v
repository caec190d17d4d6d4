(** Two requests for one key, and one request twice. *)
From Verif Require Export GrowthFacts CaWitness TraceWitness.
Local Open Scope N_scope.

Definition gr_creq : cert := Eval vm_compute in cert_request toy x_sk (x_rin x_now 2) x_keyname x_now (x_now + sec 3600).
Definition gr_new : interest := Eval vm_compute in signed_interest toy x_sk (x_prefix ++ [r_CA; gc (bs "NEW")]) (req_encode toy RT_NEW x_peer gr_creq).
Definition gr_1 : ask := Ask (x_inputs x_now 1) x_new_interest x_peer x_creq.
Definition gr_2 : ask := Ask (x_inputs x_now 1) gr_new x_peer gr_creq.
Definition gr_again : ca_state db := Eval vm_compute in restart (db_ops toy) (bs "another key") (fst x_ca1).
Ltac allowed_tac v :=
  split; [eexists; vm_compute; reflexivity|]; constructor;
  [eexists _, _; split; [vm_compute; reflexivity|]; meets
  |apply carries_decode; [auto|]; vm_compute; reflexivity
  |meets|meets
  |exists [gc (bs "alice")], (gc (bs "k1")), (gc (bs "cert-request")), (version_comp v); split; [vm_compute; reflexivity|];
   split; [discriminate|]; let K := fresh in intros k K; vm_compute in K; injection K as <-; vm_compute; discriminate
  |left; split; [reflexivity|]; split; [eexists _, _; split; [vm_compute; reflexivity|]; unfold period_policy; meets|]; split; [vm_compute; reflexivity|]; eexists; split; vm_compute; reflexivity
  |unfold key_derivable; meets].
Lemma gr_allowed1 : allowed toy x_cfg x_ca0 gr_1.
Proof. split; [exact x_addressed|exact x_admissible]. Qed.
Lemma gr_allowed2 : allowed toy x_cfg x_ca0 gr_2.
Proof. allowed_tac 2. Qed.
Lemma gr_allowed3 : allowed toy x_cfg gr_again gr_1.
Proof. allowed_tac 1. Qed.
Lemma gr_ids : NoDup (map (ask_id toy x_ca0) [gr_1; gr_2]).
Proof.
  constructor; [|constructor; [intros []|constructor]]. intros [Q|[]]. vm_compute in Q. discriminate Q.
Qed.
