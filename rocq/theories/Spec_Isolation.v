(** Vocabulary for the statement that the CA treats a request as if it served nobody else. *)
From Verif Require Export Spec_Trace.
Local Open Scope N_scope.

Section Isolation.
  Context (E : env) (g : ca_cfg) {S : Type}.
  (** The event is about the request [id]: a CHALLENGE Interest that names it, or a NEW or REVOKE Interest with a
      certificate to which the CA gives this request ID. *)
  Definition meant_for (id : bytes) (st : hstep S) : Prop :=
    exists i x, handles st i x /\
      (names_request g id x \/
       exists rt peer c, (rt = RT_NEW /\ addressed g VNew (i_name x) \/ rt = RT_REVOKE /\ addressed g VRevoke (i_name x)) /\
         carries E rt x peer c /\ id = request_id_of E (ca_idkey (h_pre st)) (c_name c)).
  (** The process ends and starts again. *)
  Definition starts_again (key : bytes) (ev : event) : Prop := ev = EvRestart key \/ exists i x n, ev = EvCrash i x n key.
  (** The second run has the events of the first that are about [id], with the same effects, and the restarts. *)
  Inductive alone (id : bytes) : list (hstep S) -> list (hstep S) -> Prop :=
  | alone_nil : alone id [] []
  | alone_keep : forall st st2 tr tr2, meant_for id st -> h_ev st2 = h_ev st -> h_effs st2 = h_effs st -> alone id tr tr2 -> alone id (st :: tr) (st2 :: tr2)
  | alone_drop : forall st tr tr2, ~ meant_for id st -> (forall key, ~ starts_again key (h_ev st)) -> alone id tr tr2 -> alone id (st :: tr) tr2
  | alone_restart : forall st st2 key tr tr2, ~ meant_for id st -> starts_again key (h_ev st) -> h_ev st2 = EvRestart key -> alone id tr tr2 -> alone id (st :: tr) (st2 :: tr2).
End Isolation.
