(** Interests that a CA answers with an error. *)
From Verif Require Export RefusedFacts CaWitness CrashWitness.
Local Open Scope N_scope.

(** The same NEW Interest again. *)
Lemma r_taken : refused toy x_cfg (x_inputs x_now 1) RT_NEW (ca_idkey (fst x_ca1)) (fun id => pending (db_ops toy) (fst x_ca1) id <> None) x_new_interest
  4 (bs "Duplicate Request ID: The same request has been seen before.").
Proof.
  pose proof x_admissible as [A1 A2 A3 A4 A5 A6 A7]. apply (rw_taken _ _ _ _ _ _ _ x_peer x_creq); [exact (conj A1 (conj A2 (conj A3 (conj A4 A5))))|exact A6|exact A7|].
  vm_compute. discriminate.
Qed.
(** A certificate outside the CA's prefix. *)
Lemma r_new : addressed x_cfg VNew (i_name x_new_interest).
Proof. eexists. reflexivity. Qed.
Lemma r_far : addressed x_cfg VNew (i_name z_far) /\ exists d, step toy x_cfg (db_ops toy) x_ca0 (EvInterest (x_inputs x_now 1) z_far) = Some (x_ca0, [EPut d]) /\
  told_error toy x_cfg z_far 5 (bs "An invalid certificate name is being requested.") d.
Proof. split; [eexists; reflexivity|]. eexists. split; [vm_compute; reflexivity|]. split; [reflexivity|]. split; vm_compute; reflexivity. Qed.
(** A CHALLENGE Interest signed with another key. *)
Lemma r_forged : turned_away toy w_cfg mem_ops (fst w_ca1) u_forged 3 (bs "Invalid Signature in the Interest packet.").
Proof. exact (ta_signature toy w_cfg mem_ops (fst w_ca1) u_forged z_id w_pending u_forged_names eq_refl u_forged_unsigned). Qed.
Lemma r_challenge : addressed w_cfg VChallenge (i_name u_forged).
Proof. eexists. reflexivity. Qed.
