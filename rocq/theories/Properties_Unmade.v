(** The CA's other customers, with and without a request: theorem C134.  Vocabulary in Spec_Unmade.v: [unmade]: the run
    without the events about one request, in which all others have the same effects (replies, certificates, emails,
    callbacks, storage). *)
From Verif Require Import IsolationWitness UnmadeFacts UnmadeWitness.
Local Open Scope N_scope.

(** ** C134: everybody else is treated as if a request had never been made *)
(** Take out of a run everything that is about one request, finished or not: what is left is a run of the CA, in which
    every other event has the effects it had, and all other requests end up as they did. *)
Theorem C134_unmade : forall E g S (ops : store_ops S) s tr s2 id, ca_at E g ops s -> steps E g ops s tr s2 ->
  exists tr' s2', steps E g ops s tr' s2' /\ unmade E g id tr tr' /\ forall id', id' <> id -> pending ops s2' id' = pending ops s2 id'.
Proof. exact others_same. Qed.
Print Assumptions C134_unmade.
(** A revocation with another customer's NEW request in between, and the NEW request without it. *)
Example C134_case : ca_at toy w_cfg mem_ops v_ca0 /\ steps toy w_cfg mem_ops v_ca0 [i_e1; i_e2; i_e3] (fst u_ca2) /\
  steps toy w_cfg mem_ops v_ca0 [um_e] (fst um_ca) /\ unmade toy w_cfg v_id [i_e1; i_e2; i_e3] [um_e] /\
  pending mem_ops (fst um_ca) u_id = pending mem_ops (fst u_ca2) u_id /\ pending mem_ops (fst um_ca) u_id <> None /\ pending mem_ops (fst um_ca) v_id = None /\ pending mem_ops (fst u_ca2) v_id <> None.
Proof. split; [exact v_at0|]. split; [exact i_steps|]. split; [exact um_steps|]. split; [exact um_unmade|exact um_case]. Qed.
