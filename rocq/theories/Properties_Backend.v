(** C42: the two storages under the CA. *)
From Verif Require Import SimFacts TraceWitness BackendWitness.
Local Open Scope N_scope.

(** ** C42: the storage back end is not observable *)
(** Without restarts and with whole-microsecond clocks: either both runs stop at the same kind of point (undefined
    behaviour), or both have the same effects at every event, and react to any further Interest in the same way. *)
Theorem C42_same_behaviour : forall E g key evs, codec_laws E -> name_fits (p_prefix (cfp g)) -> Forall in_whole_us evs ->
  (run E g mem_ops (ca_init mem_ops key) evs = None /\ run E g (db_ops E) (ca_init (db_ops E) key) evs = None) \/
  (exists s1 s2 h, run E g mem_ops (ca_init mem_ops key) evs = Some (s1, h) /\
    run E g (db_ops E) (ca_init (db_ops E) key) evs = Some (s2, h) /\
    forall i x, on_interest E g mem_ops s1 i x = on_interest E g (db_ops E) s2 i x).
Proof. exact unobservable. Qed.
Print Assumptions C42_same_behaviour.
Example C42_case : codec_laws toy /\ name_fits (p_prefix (cfp x_cfg)) /\ Forall in_whole_us b_evs /\
  run toy x_cfg (db_ops toy) (ca_init (db_ops toy) (bs "id key")) b_evs = Some (fst x_ca4, b_hist) /\
  exists c es, b_hist = firstn 3 b_hist ++ [(h_ev x_e4, es)] /\ In (EIssue c) es.
Proof. exact b_case. Qed.
