(** Concrete cases for C130. *)
From Verif Require Import BytesFacts.
From Verif Require Export ObserverFacts TraceWitness.
Local Open Scope N_scope.

(** Three wrong codes; then the CA's profile is read. *)
Lemma ob_h4 : ca_history toy w_cfg mem_ops [w_e1; n_e2; n_e3; n_e4] (fst n_ca4).
Proof. exact (history_more _ _ _ _ [_; _; _] _ _ _ _ n_h3 (some_pair _ _ _ _ n_step4)). Qed.
Lemma ob_h5 : ca_history toy w_cfg mem_ops ([w_e1; n_e2; n_e3; n_e4] ++ [n_e5]) (fst n_ca5).
Proof. exact (history_more _ _ _ _ [_; _; _; _] _ _ _ _ ob_h4 (some_pair _ _ _ _ n_step5)). Qed.
Definition ob_ca6 := Eval vm_compute in match step toy w_cfg mem_ops (fst n_ca5) (EvProfile (x_inputs (x_now + sec 3800) 6)) with Some r => r | None => (fst n_ca5, []) end.
Lemma ob_step6 : step toy w_cfg mem_ops (fst n_ca5) (EvProfile (x_inputs (x_now + sec 3800) 6)) = Some ob_ca6.
Proof. vm_compute. reflexivity. Qed.
Definition ob_e6 := HStep (fst n_ca5) (EvProfile (x_inputs (x_now + sec 3800) 6)) (snd ob_ca6) (fst ob_ca6).
Lemma ob_h6 : ca_history toy w_cfg mem_ops ([w_e1; n_e2; n_e3; n_e4] ++ n_e5 :: [ob_e6]) (fst ob_ca6).
Proof. exact (history_more _ _ _ _ [_; _; _; _; _] _ _ _ _ ob_h5 (some_pair _ _ _ _ ob_step6)). Qed.
(** What the follower was last told: one try is left. *)
Definition ob_r : request := Eval vm_compute in match observed z_id [w_e1; n_e2; n_e3; n_e4] with Some r => r | None => p_r1 end.
Lemma ob_told : observed z_id [w_e1; n_e2; n_e3; n_e4] = Some ob_r /\ pending mem_ops (fst n_ca4) z_id = Some ob_r /\ (exists cs, rq_cs ob_r = Some cs /\ cs_tries cs = 1).
Proof. split; [vm_compute; reflexivity|]. split; [vm_compute; reflexivity|]. eexists. split; reflexivity. Qed.
Lemma ob_forgets : forgets z_id n_e5.
Proof. split; [vm_compute; left; reflexivity|]. intros r [Q|[Q|[]]]; discriminate. Qed.
Lemma ob_quiet : one_process [n_e5; ob_e6] /\ no_add z_id [ob_e6].
Proof.
  split; [repeat constructor; intros []|]. constructor; [|constructor]. intros (r & I & _). cbn in I. repeat (destruct I as [I|I]; [discriminate|]). destruct I.
Qed.
Lemma ob_live : one_process [w_e1; n_e2; n_e3; n_e4].
Proof. repeat constructor; intros []. Qed.
Lemma ob_refuted : exists g tr s id r0, ca_history toy g mem_ops tr s /\ one_process tr /\ observed id tr = Some r0 /\ pending mem_ops s id = None.
Proof.
  exists w_cfg, ([w_e1; n_e2; n_e3; n_e4] ++ [n_e5]), (fst n_ca5), z_id, ob_r. split; [exact ob_h5|]. split; [repeat constructor; intros []|]. split; vm_compute; reflexivity.
Qed.
(** The CA on the database is stopped and started again. *)
Definition ob_e7 := HStep (fst x_ca1) (EvRestart (bs "new key")) [] (restart (db_ops toy) (bs "new key") (fst x_ca1)).
Lemma ob_h7 : ca_history toy x_cfg (db_ops toy) [x_e1; ob_e7] (restart (db_ops toy) (bs "new key") (fst x_ca1)).
Proof. exact (history_more _ _ _ _ [_] _ (EvRestart (bs "new key")) [] (restart (db_ops toy) (bs "new key") (fst x_ca1)) x_h1 eq_refl). Qed.
Lemma ob_restarted : exists r, pending (db_ops toy) (restart (db_ops toy) (bs "new key") (fst x_ca1)) z_id = Some r /\ observed z_id [x_e1; ob_e7] = None.
Proof. eexists. split; vm_compute; reflexivity. Qed.
