(** C135: the CA dies while it issues a certificate, before and after the request is deleted. *)
From Verif Require Export AtomicFacts TraceWitness CaWitness.
Local Open Scope N_scope.

Definition at_event (n : nat) : event := EvCrash (x_inputs (x_now + sec 30) 4) (the_interest x_chal3) n (bs "second id key").
Definition at_early : ca_state db * list eff := Eval vm_compute in match step toy x_cfg (db_ops toy) (fst x_ca3) (at_event 1) with Some r => r | None => (x_ca0, []) end.
Definition at_late : ca_state db * list eff := Eval vm_compute in match step toy x_cfg (db_ops toy) (fst x_ca3) (at_event 3) with Some r => r | None => (x_ca0, []) end.
Lemma at_early_step : step toy x_cfg (db_ops toy) (fst x_ca3) (at_event 1) = Some (fst at_early, snd at_early).
Proof. vm_compute. reflexivity. Qed.
Lemma at_late_step : step toy x_cfg (db_ops toy) (fst x_ca3) (at_event 3) = Some (fst at_late, snd at_late).
Proof. vm_compute. reflexivity. Qed.
Lemma at_done : step toy x_cfg (db_ops toy) (fst x_ca3) (EvInterest (x_inputs (x_now + sec 30) 4) (the_interest x_chal3)) = Some (fst x_ca4, snd x_ca4).
Proof. rewrite x_step4. apply f_equal. apply surjective_pairing. Qed.
Lemma at_cases : pending (db_ops toy) (fst x_ca3) z_id <> None /\ pending (db_ops toy) (fst x_ca4) z_id = None /\
  length (snd at_early) = 1%nat /\ pending (db_ops toy) (fst at_early) z_id <> None /\
  length (puts (snd at_late)) = 1%nat /\ pending (db_ops toy) (fst at_late) z_id = None.
Proof. split; [vm_compute; discriminate|]. split; [vm_compute; reflexivity|]. split; [vm_compute; reflexivity|]. split; [vm_compute; discriminate|]. split; vm_compute; reflexivity. Qed.

(** Without a database nothing is whole: the CA dies after its reply, and the request it has acknowledged is gone. *)
Definition at_new : event := EvCrash (x_inputs x_now 1) x_new_interest 2 (bs "second id key").
Definition at_m0 : ca_state mem := ca_init mem_ops (bs "id key").
Definition at_m1 : ca_state mem * list eff := Eval vm_compute in match step toy x_cfg mem_ops at_m0 (EvInterest (x_inputs x_now 1) x_new_interest) with Some r => r | None => (at_m0, []) end.
Definition at_m2 : ca_state mem * list eff := Eval vm_compute in match step toy x_cfg mem_ops at_m0 at_new with Some r => r | None => (at_m0, []) end.
Lemma told_in_vain : exists g s i x s' full n key s1 es id, ca_at toy g mem_ops s /\
  step toy g mem_ops s (EvInterest i x) = Some (s', full) /\ step toy g mem_ops s (EvCrash i x n key) = Some (s1, es) /\
  puts es <> [] /\ pending mem_ops s' id <> None /\ pending mem_ops s1 id = None.
Proof.
  exists x_cfg, at_m0, (x_inputs x_now 1), x_new_interest, (fst at_m1), (snd at_m1), 2%nat, (bs "second id key"), (fst at_m2), (snd at_m2), z_id.
  split; [constructor; [meets|meets|constructor|]; exists (bs "id key"), [], []; vm_compute; reflexivity|].
  split; [vm_compute; reflexivity|]. split; [vm_compute; reflexivity|]. split; [vm_compute; discriminate|]. split; [vm_compute; discriminate|vm_compute; reflexivity].
Qed.
