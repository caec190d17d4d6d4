(** The CA treats a request as if it served nobody else: theorem C92.  Vocabulary in Spec_Isolation.v: [meant_for]:
    the event is about the request; [alone]: the run that has only these events, with the same effects (replies,
    certificates, storage, emails), and the restarts. *)
From Verif Require Import IsolationWitness.
Local Open Scope N_scope.

(** ** C92: a request is treated as if the CA served nobody else *)
(** Take out of a run everything that is about other requests: what is left is a run of the CA, in which every
    Interest about this request has the effects it had, and the request ends up in the same state. *)
Theorem C92_isolated : forall E g S (ops : store_ops S) s tr s2 id, ca_at E g ops s -> steps E g ops s tr s2 ->
  exists tr' s2', steps E g ops s tr' s2' /\ alone E g id tr tr' /\ pending ops s2' id = pending ops s2 id.
Proof. exact isolated. Qed.
Print Assumptions C92_isolated.
(** A REVOKE request and its challenge, with another customer's NEW request in between, and without it. *)
Example C92_case : ca_at toy w_cfg mem_ops v_ca0 /\ steps toy w_cfg mem_ops v_ca0 [i_e1; i_e2; i_e3] (fst u_ca2) /\
  steps toy w_cfg mem_ops v_ca0 [i_e1; i_f3] (fst v_ca2) /\ alone toy w_cfg v_id [i_e1; i_e2; i_e3] [i_e1; i_f3] /\
  pending mem_ops (fst v_ca2) v_id = pending mem_ops (fst u_ca2) v_id /\ pending mem_ops (fst v_ca2) v_id <> None /\
  puts (snd u_ca2) <> [] /\ fst v_ca2 <> fst u_ca2.
Proof.
  split; [exact v_at0|]. split; [exact i_steps|]. split; [exact i_alone_steps|]. split; [exact i_alone|]. split; [vm_compute; reflexivity|].
  split; [vm_compute; discriminate|]. split; vm_compute; discriminate.
Qed.
