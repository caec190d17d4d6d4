(** A server whose prefix is registered after the first Interest, and one whose prefix is not. *)
From Verif Require Export RegFacts ProcessWitness TraceWitness.
Local Open Scope N_scope.

Definition gw_ok : list (gstep db) :=
  [GStep (Waiting, o_0) (RvEvent o_v0) (snd o_1) (Waiting, fst o_1); GStep (Waiting, fst o_1) (RvEvent o_v1) [] (Waiting, fst o_1);
   GStep (Waiting, fst o_1) (RvAnswer true) [] (Registered, fst o_1); GStep (Registered, fst o_1) (RvEvent o_v1) (snd o_2) (Registered, fst o_2)].
Definition gw_no : list (gstep db) :=
  [GStep (Waiting, o_0) (RvEvent o_v0) (snd o_1) (Waiting, fst o_1); GStep (Waiting, fst o_1) (RvAnswer false) [] (Refused, fst o_1);
   GStep (Refused, fst o_1) (RvEvent o_v1) [] (Refused, fst o_1)].
Lemma gw_history : forall tr s, gsteps toy h_cfg (db_ops toy) false (Waiting, o_0) tr s -> reg_history toy h_cfg (db_ops toy) false tr s.
Proof. intros tr s H. constructor; [meets|meets|constructor|exact H]. Qed.
Lemma gw_quiet : filter_outs toy h_cfg false o_d [] x_new_interest = [].
Proof. vm_compute. reflexivity. Qed.
Lemma gw_start : rstep toy h_cfg (db_ops toy) false (Waiting, o_0) (RvEvent o_v0) = Some ((Waiting, fst o_1), snd o_1).
Proof. vm_compute. reflexivity. Qed.
Lemma gw_heard : rstep toy h_cfg (db_ops toy) false (Registered, fst o_1) (RvEvent o_v1) = Some ((Registered, fst o_2), snd o_2).
Proof. vm_compute. reflexivity. Qed.
Lemma gw_registered : reg_history toy h_cfg (db_ops toy) false gw_ok (Registered, fst o_2).
Proof.
  apply gw_history. econstructor; [exact gw_start|]. econstructor; [change (Some (Waiting, fst o_1, filter_outs toy h_cfg false o_d [] x_new_interest) = Some (Waiting, fst o_1, [])); rewrite gw_quiet; reflexivity|].
  econstructor; [reflexivity|]. econstructor; [exact gw_heard|constructor].
Qed.
Lemma gw_refused : reg_history toy h_cfg (db_ops toy) false gw_no (Refused, fst o_1).
Proof.
  apply gw_history. econstructor; [exact gw_start|]. econstructor; [reflexivity|].
  econstructor; [change (Some (Refused, fst o_1, filter_outs toy h_cfg false o_d [] x_new_interest) = Some (Refused, fst o_1, [])); rewrite gw_quiet; reflexivity|constructor].
Qed.
Lemma gw_own : exists ca, fst o_1 = Running ca o_d [] /\ reg_history toy h_cfg (db_ops toy) false gw_no (Refused, fst o_1) /\ begins (p_prefix (cfp h_cfg)) (d_name o_d).
Proof. eexists. split; [reflexivity|]. split; [exact gw_refused|]. eexists. cbn. reflexivity. Qed.
