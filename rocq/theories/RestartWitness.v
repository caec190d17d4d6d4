(** C136: a session with and without restarts, and a restart without a database. *)
From Verif Require Export RestartFacts TraceWitness CaWitness CrashWitness.
Local Open Scope N_scope.

Definition re_tr : list (hstep db) := [x_e2; x_e3; x_e4].
Definition re_evs : list event := [EvRestart (bs "second id key"); h_ev x_e2; EvRestart (bs "third id key"); h_ev x_e3; h_ev x_e4; EvRestart (bs "fourth id key")].
Lemma re_steps : steps toy x_cfg (db_ops toy) (fst x_ca1) re_tr (fst x_ca4).
Proof.
  unfold re_tr, x_e2, x_e3, x_e4. apply steps_cons; [rewrite x_step2; apply f_equal, surjective_pairing|]. apply steps_cons; [rewrite x_step3; apply f_equal, surjective_pairing|].
  apply steps_cons; [rewrite x_step4; apply f_equal, surjective_pairing|]. apply steps_nil.
Qed.
Lemma challenge_keyless : forall g i x, addressed g VChallenge (i_name x) -> keyless g (EvInterest i x).
Proof.
  intros g i x A. right. exists i, x. split; [reflexivity|]. split; [|split]; intros B; discriminate (addressed_unique _ _ _ _ A B).
Qed.
Lemma re_keyless : Forall (fun st => keyless x_cfg (h_ev st)) re_tr.
Proof. repeat (apply Forall_cons; [apply challenge_keyless; eexists; vm_compute; reflexivity|]). apply Forall_nil. Qed.
Lemma re_same : but_restarts re_evs = but_restarts (map h_ev re_tr).
Proof. reflexivity. Qed.
Lemma re_ends : exists c, In (EIssue c) (h_effs x_e4).
Proof. eexists. left. reflexivity. Qed.

(** ** A crash with the certificate signed; the Interest comes again *)
Lemma re_again : keyless x_cfg (EvInterest (x_inputs (x_now + sec 30) 4) (the_interest x_chal3)) /\
  step toy x_cfg (db_ops toy) (fst x_ca3) (EvCrash (x_inputs (x_now + sec 30) 4) (the_interest x_chal3) 1 (bs "second id key")) = Some (fst c_ca4, snd c_ca4) /\
  nothing_stored (snd c_ca4) /\ length (snd c_ca4) = 1%nat /\
  step toy x_cfg (db_ops toy) (fst x_ca3) (EvInterest (x_inputs (x_now + sec 30) 4) (the_interest x_chal3)) = Some (fst x_ca4, snd x_ca4).
Proof.
  split; [apply challenge_keyless; eexists; vm_compute; reflexivity|]. split; [vm_compute; reflexivity|].
  split; [|split; [reflexivity|rewrite x_step4; apply f_equal, surjective_pairing]].
  split; [|split]; intros ? [IN|[]]; discriminate IN.
Qed.

(** ** Without a database *)
Definition re_m1 : ca_state mem * list eff := Eval vm_compute in match step toy x_cfg mem_ops (ca_init mem_ops (bs "id key")) (h_ev x_e1) with Some r => r | None => (ca_init mem_ops [], []) end.
Definition re_m2 : ca_state mem * list eff := Eval vm_compute in match step toy x_cfg mem_ops (fst re_m1) (h_ev x_e2) with Some r => r | None => re_m1 end.
Definition re_m3 : ca_state mem := Eval vm_compute in restart mem_ops (bs "second id key") (fst re_m1).
Definition re_m4 : ca_state mem * list eff := Eval vm_compute in match step toy x_cfg mem_ops re_m3 (h_ev x_e2) with Some r => r | None => re_m1 end.
Lemma re_m_step1 : step toy x_cfg mem_ops (ca_init mem_ops (bs "id key")) (h_ev x_e1) = Some (fst re_m1, snd re_m1).
Proof. vm_compute. reflexivity. Qed.
Lemma re_m_at0 : ca_at toy x_cfg mem_ops (ca_init mem_ops (bs "id key")).
Proof. constructor; [meets|meets|constructor|]. exists (bs "id key"), [], []. vm_compute. reflexivity. Qed.
Lemma re_m_step2 : step toy x_cfg mem_ops (fst re_m1) (h_ev x_e2) = Some (fst re_m2, snd re_m2).
Proof. vm_compute. reflexivity. Qed.
Lemma re_m_step4 : step toy x_cfg mem_ops re_m3 (h_ev x_e2) = Some (fst re_m4, snd re_m4).
Proof. vm_compute. reflexivity. Qed.
Lemma restart_noticed : exists g s tr s2 tr' s2', ca_at toy g mem_ops s /\ steps toy g mem_ops s tr s2 /\ steps toy g mem_ops s tr' s2' /\ Forall (fun st => keyless g (h_ev st)) (tr ++ tr') /\
  but_restarts (map h_ev tr') = but_restarts (map h_ev tr) /\ all_served tr' <> all_served tr.
Proof.
  exists x_cfg, (fst re_m1), [HStep (fst re_m1) (h_ev x_e2) (snd re_m2) (fst re_m2)], (fst re_m2),
    [HStep (fst re_m1) (EvRestart (bs "second id key")) [] re_m3; HStep re_m3 (h_ev x_e2) (snd re_m4) (fst re_m4)], (fst re_m4).
  split; [exact (ca_at_step _ _ _ _ _ _ _ _ re_m_at0 re_m_step1)|].
  split; [apply steps_cons; [exact re_m_step2|apply steps_nil]|].
  split; [apply steps_cons; [reflexivity|]; apply steps_cons; [exact re_m_step4|apply steps_nil]|].
  split; [|split; [reflexivity|]].
  - assert (K : keyless x_cfg (h_ev x_e2)) by (apply challenge_keyless; eexists; vm_compute; reflexivity).
    cbn [app]. apply Forall_cons; [exact K|]. apply Forall_cons; [left; reflexivity|]. apply Forall_cons; [exact K|apply Forall_nil].
  - intros Q. apply (f_equal (map (fun p => length (snd p)))) in Q. vm_compute in Q. discriminate.
Qed.
