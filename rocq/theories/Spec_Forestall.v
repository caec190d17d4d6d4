(** Vocabulary for C128: somebody else asks first for a certificate under the name a requester is going to ask for.  The other words are those of
    Spec_Hold.v and Spec_Requester.v. *)
From Verif Require Export Spec_Hold Spec_Requester.
Local Open Scope N_scope.

(** The NEW Interest [x] that genNewInterest (requester-request.cpp:120-159) makes from the request state [s], which becomes [s']. *)
Definition asks_new (E : env) (s : rstate) (ri : rinputs) (kn : name) (sk : bytes) (nb na : Z) (x : interest) (s' : rstate) : Prop :=
  gen_new E s ri kn sk nb na = (Ok (Some x), s').
(** Turned away: the CA keeps its state, says why, and the requester throws and keeps its own state. *)
Definition turned_down (E : env) (g : ca_cfg) {S} (ops : store_ops S) (ca : ca_state S) (s : rstate) (ri : rinputs) (i : inputs) (kn : name) (sk : bytes) (nb na : Z) : Prop :=
  exists y s' d, asks_new E s ri kn sk nb na y s' /\ step E g ops ca (EvInterest i y) = Some (ca, [EPut d]) /\
    told_error E g y 4 (bs "Duplicate Request ID: The same request has been seen before.") d /\ forall rj, on_new_response E s' rj d = (Exn, s').
(** Some Interest of the history carried a certificate whose name gives the request ID [id] under the key [key]. *)
Definition heard_of (E : env) {S} (key id : bytes) (tr : list (hstep S)) : Prop :=
  exists st i x rt peer c, In st tr /\ handles st i x /\ carries E rt x peer c /\ id_for E key (c_name c) = id.
