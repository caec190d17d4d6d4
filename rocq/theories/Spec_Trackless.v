(** Vocabulary for C132: what is left at the CA of a request that is over. *)
From Verif Require Export Spec_Isolation Spec_Outsider.
Local Open Scope N_scope.

Section Trackless.
  Context (E : env) (g : ca_cfg) {S : Type}.
  (** All that happens in [tr] is about the request [id], in one process: NEW or REVOKE Interests that get this ID, and
      CHALLENGE Interests that name it. *)
  Definition all_about (id : bytes) (tr : list (hstep S)) : Prop :=
    forall st, In st tr -> meant_for E g id st /\ forall key, ~ starts_again key (h_ev st).
End Trackless.
