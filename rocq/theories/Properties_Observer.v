(** C130: following the CA through its status update callback.  Vocabulary in Spec_Observer.v. *)
From Verif Require Import ObserverWitness.
Local Open Scope N_scope.

(** ** C130 Whoever keeps a list of the requests from the CA's status updates has the pending requests *)
(** While the process runs, the list has every pending request, as the CA has it. *)
Theorem C130_complete_partial : forall E g S (ops : store_ops S) tr s id r, ca_history E g ops tr s -> one_process tr -> pending ops s id = Some r ->
  exists r0, observed id tr = Some r0 /\ told_of r0 r.
Proof. exact observed_live. Qed.
Print Assumptions C130_complete_partial.
(** A request in its challenge, one try left. *)
Example C130_complete_case : ca_history toy w_cfg mem_ops [w_e1; n_e2; n_e3; n_e4] (fst n_ca4) /\ one_process [w_e1; n_e2; n_e3; n_e4] /\
  observed z_id [w_e1; n_e2; n_e3; n_e4] = Some ob_r /\ pending mem_ops (fst n_ca4) z_id = Some ob_r /\ (exists cs, rq_cs ob_r = Some cs /\ cs_tries cs = 1).
Proof. split; [exact ob_h4|]. split; [exact ob_live|exact ob_told]. Qed.
(** In general, what the list lacks are requests that the database kept over a restart and that have not changed since. *)
Theorem C130_restarted_partial : forall E g S (ops : store_ops S) tr s id r, ca_history E g ops tr s -> pending ops s id = Some r ->
  (exists r0, observed id tr = Some r0 /\ told_of r0 r) \/
  (observed id tr = None /\ exists a st b, tr = a ++ st :: b /\ restarts (h_ev st) /\ pending ops (h_post st) id = Some r).
Proof. exact observed_pending. Qed.
Print Assumptions C130_restarted_partial.
Example C130_restarted_case : ca_history toy x_cfg (db_ops toy) [x_e1; ob_e7] (restart (db_ops toy) (bs "new key") (fst x_ca1)) /\
  exists r, pending (db_ops toy) (restart (db_ops toy) (bs "new key") (fst x_ca1)) z_id = Some r /\ observed z_id [x_e1; ob_e7] = None.
Proof. split; [exact ob_h7|exact ob_restarted]. Qed.

(** The list may have more: a request that the CA gives up is not reported. *)
Theorem C130_refuted : exists g tr s id r0, ca_history toy g mem_ops tr s /\ one_process tr /\ observed id tr = Some r0 /\ pending mem_ops s id = None.
Proof. exact ob_refuted. Qed.
Print Assumptions C130_refuted.
(** Every request given up without a word stays in the list, whatever happens afterwards, until a request with the same ID is opened or the
    process ends. *)
Theorem C130_stays_refuted : forall E g S (ops : store_ops S) tr st later s id r0, ca_history E g ops (tr ++ st :: later) s -> observed id tr = Some r0 -> pending ops (h_pre st) id <> None -> forgets id st ->
  one_process (st :: later) -> no_add id later -> pending ops s id = None /\ observed id (tr ++ st :: later) = Some r0.
Proof. exact never_told. Qed.
Print Assumptions C130_stays_refuted.
(** The third wrong code. *)
Example C130_stays_case : ca_history toy w_cfg mem_ops ([w_e1; n_e2; n_e3; n_e4] ++ n_e5 :: [ob_e6]) (fst ob_ca6) /\ observed z_id [w_e1; n_e2; n_e3; n_e4] = Some ob_r /\
  pending mem_ops (h_pre n_e5) z_id <> None /\ forgets z_id n_e5 /\ one_process [n_e5; ob_e6] /\ no_add z_id [ob_e6].
Proof. split; [exact ob_h6|]. split; [exact (proj1 ob_told)|]. split; [vm_compute; discriminate|]. split; [exact ob_forgets|exact ob_quiet]. Qed.
(** Nothing else makes the list wrong: a request in the list that is not pending was ended, without a word to the callback, by a CHALLENGE Interest
    that the requester signed. *)
Theorem C130_stale_partial : forall E g S (ops : store_ops S) tr s id r0, ca_history E g ops tr s -> observed id tr = Some r0 -> pending ops s id = None ->
  exists a st b i x, tr = a ++ st :: b /\ observed id a = Some r0 /\ h_ev st = EvInterest i x /\ names_request g id x /\ signed_by E x (public_key (rq_cert r0)) /\ forgets id st.
Proof. exact observed_stale. Qed.
Print Assumptions C130_stale_partial.
Example C130_stale_case : ca_history toy w_cfg mem_ops ([w_e1; n_e2; n_e3; n_e4] ++ n_e5 :: [ob_e6]) (fst ob_ca6) /\ observed z_id ([w_e1; n_e2; n_e3; n_e4] ++ n_e5 :: [ob_e6]) = Some ob_r /\
  pending mem_ops (fst ob_ca6) z_id = None.
Proof. split; [exact ob_h6|]. split; vm_compute; reflexivity. Qed.
