(** Vocabulary for C136: restarts of the CA while requests are pending. *)
From Verif Require Export Spec_Trace.
Local Open Scope N_scope.

(** The process is stopped and started again between two Interests. *)
Definition is_restart (ev : event) : bool := match ev with EvRestart _ => true | _ => false end.
(** A restart, or an Interest that is none of NEW, REVOKE and INFO: CHALLENGE, PROBE, or for nobody. *)
Definition keyless (g : ca_cfg) (ev : event) : Prop :=
  is_restart ev = true \/ exists i x, ev = EvInterest i x /\ ~ addressed g VNew (i_name x) /\ ~ addressed g VRevoke (i_name x) /\ ~ addressed g VInfo (i_name x).
(** What happens apart from restarts. *)
Definition but_restarts (evs : list event) : list event := filter (fun ev => negb (is_restart ev)) evs.
(** The events apart from restarts, each with its effects: replies, certificates, emails, callbacks, storage. *)
Definition all_served {S} (tr : list (hstep S)) : list (event * list eff) :=
  map (fun st => (h_ev st, h_effs st)) (filter (fun st => negb (is_restart (h_ev st))) tr).
(** Nothing has been added to, updated in or deleted from the storage. *)
Definition nothing_stored (es : list eff) : Prop :=
  (forall r, ~ In (EAdd r) es) /\ (forall r, ~ In (EUpdate r) es) /\ (forall id, ~ In (EDelete id) es).
