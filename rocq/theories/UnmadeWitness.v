(** A case for C134: two customers at once, and without the first. *)
From Verif Require Import CaFacts TraceProps IsolationWitness UnmadeFacts.
Local Open Scope N_scope.

Definition um_ca := Eval vm_compute in w_go v_ca0 (x_inputs (x_now + sec 45) 5) u_new.
Definition um_e := HStep v_ca0 (EvInterest (x_inputs (x_now + sec 45) 5) u_new) (snd um_ca) (fst um_ca).
Lemma um_steps : steps toy w_cfg mem_ops v_ca0 [um_e] (fst um_ca).
Proof. eapply steps_cons; [vm_compute; reflexivity|apply steps_nil]. Qed.
Lemma um_unmade : unmade toy w_cfg v_id [i_e1; i_e2; i_e3] [um_e].
Proof.
  assert (NR : forall i x key, ~ starts_again key (EvInterest i x)) by (intros i x key [Q|(j & y & n & Q)]; discriminate Q).
  apply um_drop; [exact i_first|apply NR|]. apply um_keep; [exact i_other|split; vm_compute; reflexivity|]. apply um_drop; [exact i_third|apply NR|apply um_nil].
Qed.
Lemma um_case : pending mem_ops (fst um_ca) u_id = pending mem_ops (fst u_ca2) u_id /\ pending mem_ops (fst um_ca) u_id <> None /\ pending mem_ops (fst um_ca) v_id = None /\ pending mem_ops (fst u_ca2) v_id <> None.
Proof. split; [vm_compute; reflexivity|]. split; [vm_compute; discriminate|]. split; [vm_compute; reflexivity|vm_compute; discriminate]. Qed.
