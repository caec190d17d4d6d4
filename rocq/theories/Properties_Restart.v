(** Restarts of the CA while requests are pending: theorems C136.  Vocabulary in Spec_Restart.v: [keyless]: a restart, or an
    Interest that is none of NEW, REVOKE and INFO; [but_restarts]: the events apart from restarts; [all_served]: these with
    their effects; [nothing_stored]: no effect on the storage. *)
From Verif Require Import RestartFacts RestartWitness.
Local Open Scope N_scope.

(** ** C136: restarts go unnoticed while requests are pending *)
(** Put restarts in or take them out anywhere in a run: the CA does with every Interest exactly what it did, and ends with
    the same pending requests. *)
Theorem C136_unnoticed_partial : forall E g (s : ca_state db) tr s2 evs', steps E g (db_ops E) s tr s2 -> Forall (fun st => keyless g (h_ev st)) tr ->
  but_restarts evs' = but_restarts (map h_ev tr) ->
  exists tr' s2', steps E g (db_ops E) s tr' s2' /\ map h_ev tr' = evs' /\ all_served tr' = all_served tr /\ (forall id, pending (db_ops E) s2' id = pending (db_ops E) s2 id).
Proof. exact restarts_unnoticed. Qed.
Print Assumptions C136_unnoticed_partial.
(** The pin challenge with one wrong code and then the certificate; three restarts put in. *)
Example C136_case : ca_at toy x_cfg (db_ops toy) (fst x_ca1) /\ steps toy x_cfg (db_ops toy) (fst x_ca1) re_tr (fst x_ca4) /\
  Forall (fun st => keyless x_cfg (h_ev st)) re_tr /\ but_restarts re_evs = but_restarts (map h_ev re_tr) /\
  In x_e4 re_tr /\ (exists c, In (EIssue c) (h_effs x_e4)) /\ length re_evs = 6%nat /\ length re_tr = 3%nat.
Proof.
  split; [exact x_at1|]. split; [exact re_steps|]. split; [exact re_keyless|]. split; [exact re_same|]. split; [right; right; left; reflexivity|].
  split; [exact re_ends|]. split; reflexivity.
Qed.
(** Nor does a crash matter that comes before anything is stored: the same Interest, sent again, is treated as it would have
    been treated then without the crash. *)
Theorem C136_again_partial : forall E g s i x n key s1 es i' s2 full, keyless g (EvInterest i x) -> step E g (db_ops E) s (EvCrash i x n key) = Some (s1, es) -> nothing_stored es ->
  step E g (db_ops E) s (EvInterest i' x) = Some (s2, full) ->
  exists s3, step E g (db_ops E) s1 (EvInterest i' x) = Some (s3, full) /\ forall id, pending (db_ops E) s3 id = pending (db_ops E) s2 id.
Proof. exact crash_again. Qed.
Print Assumptions C136_again_partial.
(** The CA dies with the certificate signed. *)
Example C136_again_case : keyless x_cfg (EvInterest (x_inputs (x_now + sec 30) 4) (the_interest x_chal3)) /\
  step toy x_cfg (db_ops toy) (fst x_ca3) (EvCrash (x_inputs (x_now + sec 30) 4) (the_interest x_chal3) 1 (bs "second id key")) = Some (fst c_ca4, snd c_ca4) /\
  nothing_stored (snd c_ca4) /\ length (snd c_ca4) = 1%nat /\
  step toy x_cfg (db_ops toy) (fst x_ca3) (EvInterest (x_inputs (x_now + sec 30) 4) (the_interest x_chal3)) = Some (fst x_ca4, snd x_ca4).
Proof. exact re_again. Qed.
(** Not with the storage in memory: after a restart the request is unknown. *)
Theorem C136_refuted : exists g s tr s2 tr' s2', ca_at toy g mem_ops s /\ steps toy g mem_ops s tr s2 /\ steps toy g mem_ops s tr' s2' /\ Forall (fun st => keyless g (h_ev st)) (tr ++ tr') /\
  but_restarts (map h_ev tr') = but_restarts (map h_ev tr) /\ all_served tr' <> all_served tr.
Proof. exact restart_noticed. Qed.
Print Assumptions C136_refuted.
