(** Vocabulary for C122: revocation after a change of the CA's configuration. *)
From Verif Require Export Spec_Reconfig Spec_Revoke Spec_Refused.
Local Open Scope N_scope.

(** [c] was issued by this CA, at a time when it had the configuration [g1]. *)
Definition issued_under {S} (tr : list (ca_cfg * hstep S)) (g1 : ca_cfg) (c : cert) : Prop := exists st, In (g1, st) tr /\ In (EIssue c) (h_effs st).
