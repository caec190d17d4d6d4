(** Vocabulary for C130: somebody who follows the CA through its status update callback (CaModule::setStatusUpdateCallback, ca-module.cpp:115-119). *)
From Verif Require Export Spec_Trace Spec_Storage.
Local Open Scope N_scope.

(** The follower keeps, for each request ID, what the callback was last given (ca-module.cpp:366-368, 468-470), and strikes the request
    off when it was told that the request has succeeded. *)
Definition hear (id : bytes) (v : option request) (e : eff) : option request :=
  match e with
  | ECallback r => if bytes_eqb (rq_id r) id then (if rq_status r =? ST_SUCCESS then None else Some r) else v
  | _ => v
  end.
(** A follower that lives in the CA's process begins anew when the process does. *)
Definition hear_step {S} (id : bytes) (v : option request) (st : hstep S) : option request :=
  match h_ev st with
  | EvCrash _ _ _ _ | EvRestart _ => None
  | EvInterest _ _ | EvProfile _ => fold_left (hear id) (h_effs st) v
  end.
(** The follower's entry for [id] after the history. *)
Definition observed {S} (id : bytes) (tr : list (hstep S)) : option request := fold_left (hear_step id) tr None.

(** The stored request [r] is the one told, as the storage keeps it: the database keeps times to the microsecond. *)
Definition told_of (told r : request) : Prop := r = told \/ r = db_stored told.
(** The request [id] is removed from the storage, and the callback is told nothing. *)
Definition forgets {S} (id : bytes) (st : hstep S) : Prop := In (EDelete id) (h_effs st) /\ forall r, ~ In (ECallback r) (h_effs st).
(** The process is not ended in the course of the steps. *)
Definition one_process {S} (tr : list (hstep S)) : Prop := Forall (fun st => ~ restarts (h_ev st)) tr.
