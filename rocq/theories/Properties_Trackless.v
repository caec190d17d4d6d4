(** What is left at the CA of a request that is over: theorem C132.  Vocabulary: [all_about] (Spec_Trackless.v): all
    that happens is about one request; [same_seen] (Spec_Outsider.v): the same event with the same effects (replies,
    certificates, emails, callbacks, storage). *)
From Verif Require Import CaWitness TraceWitness TracklessFacts TracklessWitness.
Local Open Scope N_scope.

(** ** C132: a request that is over leaves no trace *)
(** When a request is over, by a certificate, a revocation or a failure, the CA goes on exactly as if it had never been
    made: whatever happens then could happen without it, and the other way round. *)
Theorem C132_no_trace : forall E g S (ops : store_ops S) s tr s1 id, ca_at E g ops s -> steps E g ops s tr s1 -> all_about E g id tr -> pending ops s1 id = pending ops s id ->
  (forall tr1 s2, steps E g ops s1 tr1 s2 -> exists tr2 s2', steps E g ops s tr2 s2' /\ Forall2 same_seen tr1 tr2) /\
  (forall tr2 s2, steps E g ops s tr2 s2 -> exists tr1 s2', steps E g ops s1 tr1 s2' /\ Forall2 same_seen tr2 tr1).
Proof. exact no_trace. Qed.
Print Assumptions C132_no_trace.
(** A session from the NEW Interest to the certificate.  By the theorem it can be run again. *)
Example C132_case : ca_at toy x_cfg (db_ops toy) x_ca0 /\ steps toy x_cfg (db_ops toy) x_ca0 [x_e1; x_e2; x_e3; x_e4] (fst x_ca4) /\ all_about toy x_cfg z_id [x_e1; x_e2; x_e3; x_e4] /\
  pending (db_ops toy) x_ca0 z_id = None /\ pending (db_ops toy) (fst x_ca4) z_id = None /\ pending (db_ops toy) (fst x_ca3) z_id <> None /\ exists c, In (EIssue c) (h_effs x_e4).
Proof. split; [exact x_at0|]. split; [exact tl_steps|]. split; [exact tl_about|exact tl_over]. Qed.
