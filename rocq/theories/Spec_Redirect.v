(** Vocabulary for a client that one CA sends to another. *)
From Verif Require Export Spec_ClientSession.
Local Open Scope N_scope.

(** The certificate belongs to the CA with this prefix. *)
Definition ca_named (prefix : name) (c : cert) : Prop := exists kid issuer version, c_name c = prefix ++ [gc (bs "KEY"); kid; issuer; version].
(** Every CA in the list of redirections has a certificate with a proper name. *)
Definition proper_targets (g : ca_cfg) : Prop := forall c p, In (Some c, p) (cf_redirect (cf g)) -> exists prefix, ca_named prefix c.
