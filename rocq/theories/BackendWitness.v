(** A history that both storages go through. *)
From Verif Require Import SimFacts TraceWitness.
Local Open Scope N_scope.

Definition b_evs := map h_ev [x_e1; x_e2; x_e3; x_e4].
Definition b_hist := map (fun e => (h_ev e, h_effs e)) [x_e1; x_e2; x_e3; x_e4].
Lemma b_run : run toy x_cfg (db_ops toy) (ca_init (db_ops toy) (bs "id key")) b_evs = Some (fst x_ca4, b_hist).
Proof.
  cbn [b_evs map h_ev x_e1 x_e2 x_e3 x_e4 run]. change (ca_init (db_ops toy) (bs "id key")) with x_ca0.
  rewrite (some_pair _ _ _ _ x_step1), (some_pair _ _ _ _ x_step2), (some_pair _ _ _ _ x_step3), (some_pair _ _ _ _ x_step4). reflexivity.
Qed.
Lemma b_issues : exists c es, b_hist = firstn 3 b_hist ++ [(h_ev x_e4, es)] /\ In (EIssue c) es.
Proof. exists x_cert, (h_effs x_e4). split; [reflexivity|]. left. reflexivity. Qed.
Lemma b_case : codec_laws toy /\ name_fits (p_prefix (cfp x_cfg)) /\ Forall in_whole_us b_evs /\
  run toy x_cfg (db_ops toy) (ca_init (db_ops toy) (bs "id key")) b_evs = Some (fst x_ca4, b_hist) /\
  exists c es, b_hist = firstn 3 b_hist ++ [(h_ev x_e4, es)] /\ In (EIssue c) es.
Proof. split; [meets|]. split; [meets|]. split; [repeat constructor|]. split; [exact b_run|exact b_issues]. Qed.
