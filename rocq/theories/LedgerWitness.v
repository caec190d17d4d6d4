(** The ledger of the example runs. *)
From Verif Require Export LedgerFacts TraceWitness.
Local Open Scope N_scope.

(** NEW, a wrong code, the right code; a crash between signing and forgetting. *)
Lemma lg_histories : ca_history toy x_cfg (db_ops toy) ([x_e1; x_e2; x_e3] ++ x_e4 :: []) (fst x_ca4) /\ In (EIssue x_cert) (h_effs x_e4) /\
  ca_history toy x_cfg (db_ops toy) ([x_e1; x_e2; x_e3] ++ [c_e4] ++ [c_e5]) (fst c_ca5) /\ (exists c, h_effs c_e4 = [EIssue c]).
Proof. split; [exact x_h4|]. split; [left; reflexivity|]. split; [exact c_hist|]. eexists. reflexivity. Qed.
(** A run of the machine that grants a certificate after a wrong answer and a crash, and one that revokes. *)
Definition lg_moves : list move :=
  [Idle; Open RT_NEW x_creq z_key; Idle; Ask (AwaitCode x_code 3 x_now); Miss (GiveCode (bs "000000") (x_now + sec 10) 3600) (x_now + sec 10); Sign (GiveCode x_code (x_now + sec 20) 3600) x_cert].
Definition lg_revoke : list move := [Open RT_REVOKE x_creq z_key; Ask (AwaitCode x_code 3 x_now)].
Lemma lg_certifies : certifies toy x_cfg x_creq x_cert.
Proof.
  exists (removelast (removelast (c_name x_creq))), (last (removelast (c_name x_creq)) (gc [])), (last (c_name x_creq) (gc [])), (in_version (x_inputs (x_now + sec 30) 4)).
  repeat (split; [vm_compute; reflexivity|]). vm_compute. reflexivity.
Qed.
Lemma lg_in_time : forall d e, (e - d < 3600)%Z -> in_time (x_now + sec d) (x_now + sec e) 3600.
Proof. intros d e H. unfold in_time, sec. lia. Qed.
Lemma lg_runs : ledger_run toy x_cfg None (lg_moves ++ Grant (GiveCode x_code (x_now + sec 30) 3600) x_cert :: [Idle]) None /\
  ledger_run toy x_cfg None (lg_revoke ++ Revoke (GiveCode x_code (x_now + sec 30) 3600) :: []) None.
Proof.
  assert (Q : x_now = (x_now + sec 0)%Z) by (unfold sec; lia).
  split; unfold lg_moves, lg_revoke; cbn [app].
  - econstructor; [constructor|]. econstructor; [constructor; left; reflexivity|]. econstructor; [constructor|]. econstructor; [constructor; constructor|].
    econstructor; [constructor; [vm_compute; discriminate|rewrite Q at 1; apply lg_in_time; reflexivity|reflexivity]|].
    econstructor; [constructor; [constructor; apply lg_in_time; reflexivity|exact lg_certifies]|].
    econstructor; [constructor; [constructor; apply lg_in_time; reflexivity|exact lg_certifies]|]. econstructor; [constructor|constructor].
  - econstructor; [constructor; right; reflexivity|]. econstructor; [constructor; constructor|].
    econstructor; [constructor; constructor; rewrite Q at 1; apply lg_in_time; reflexivity|constructor].
Qed.
