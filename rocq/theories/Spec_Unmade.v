(** Vocabulary for C134: the CA's other customers, with and without a request. *)
From Verif Require Export Spec_Isolation Spec_Outsider.
Local Open Scope N_scope.

Section Unmade.
  Context (E : env) (g : ca_cfg) {S : Type}.
  (** The second run has all events of the first but those about the request [id], with the same effects.  Where the
      process ended while it handled one of those, it restarts. *)
  Inductive unmade (id : bytes) : list (hstep S) -> list (hstep S) -> Prop :=
  | um_nil : unmade id [] []
  | um_keep : forall st st2 tr tr2, ~ meant_for E g id st -> same_seen st st2 -> unmade id tr tr2 -> unmade id (st :: tr) (st2 :: tr2)
  | um_drop : forall st tr tr2, meant_for E g id st -> (forall key, ~ starts_again key (h_ev st)) -> unmade id tr tr2 -> unmade id (st :: tr) tr2
  | um_restart : forall st st2 key tr tr2, meant_for E g id st -> starts_again key (h_ev st) -> h_ev st2 = EvRestart key -> unmade id tr tr2 -> unmade id (st :: tr) (st2 :: tr2).
End Unmade.
