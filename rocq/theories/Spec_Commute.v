(** Vocabulary for C133: the order in which Interests about different requests arrive. *)
From Verif Require Export Spec_Isolation.
Local Open Scope N_scope.

Section Commute.
  Context (E : env) (g : ca_cfg) {S : Type}.
  (** What is seen of a step: the event and all its effects (replies, certificates, emails, callbacks, storage). *)
  Definition seen (st : hstep S) : event * list eff := (h_ev st, h_effs st).
  (** An Interest about the request [id], which the process survives. *)
  Definition only_about (id : bytes) (st : hstep S) : Prop := meant_for E g id st /\ forall key, ~ starts_again key (h_ev st).
End Commute.

(** ** Interleavings *)
(** An Interest about the request [id], for a CA with the request ID key [k]. *)
Definition interest_about (E : env) (g : ca_cfg) (k id : bytes) (ev : event) : Prop :=
  exists i x, ev = EvInterest i x /\
    (names_request g id x \/
     exists rt peer c, (rt = RT_NEW /\ addressed g VNew (i_name x) \/ rt = RT_REVOKE /\ addressed g VRevoke (i_name x)) /\
       carries E rt x peer c /\ id = request_id_of E k (c_name c)).
(** What is seen of a run, every step with the request it is about. *)
Definition labelled : Type := list (bytes * (event * list eff)).
(** The part of it that is about the request [id], in its order. *)
Definition of_request (id : bytes) (l : labelled) : list (event * list eff) := map snd (filter (fun p => bytes_eqb (fst p) id) l).
