(** C112: publishing to a repo. *)
From Verif Require Import RepoFacts RepoWitness.
Local Open Scope N_scope.

(** ** C112: certificates reach the repo *)
(** An event writes to the repo once at most. *)
Theorem C112_once : forall E g S (ops : store_ops S) repo tr p st, server_history E g ops repo tr p -> In st tr -> (length (filter is_write (p_outs st)) <= 1)%nat.
Proof. exact writes_once. Qed.
Print Assumptions C112_once.
(** The repo holds what an event wrote whose connection was made, and nothing else. *)
Theorem C112_exact : forall S (tr : list (sstep S)) ups o, in_repo tr ups o <->
  exists n st, nth_error tr n = Some st /\ nth_error ups n = Some true /\ In o (p_outs st) /\ ((exists d, o = ORepoProfile d) \/ exists c, o = ORepoCert c).
Proof. exact repo_exact. Qed.
Print Assumptions C112_exact.
(** While every connection is made, the repo has the profile packet of the running server and each certificate announced since it started. *)
Theorem C112_reach_partial : forall E g S (ops : store_ops S) tr ca d cache ups, server_history E g ops true tr (Running ca d cache) -> length ups = length tr ->
  exists u st w a b cs, tr = u ++ st :: w /\ is_start (p_ev st) /\ Forall (fun st => ~ is_start (p_ev st)) w /\
    ca_history E g ops (a ++ b) ca /\ Forall (fun st => ~ restarts (h_ev st)) b /\ server_dealings w = module_dealings b /\ announced b cs /\
    (Forall (eq true) (skipn (length u) ups) -> in_repo tr ups (ORepoProfile d) /\ Forall (fun c => in_repo tr ups (ORepoCert c)) cs).
Proof. exact repo_complete. Qed.
Print Assumptions C112_reach_partial.
(** A certificate whose one connection is not made is never tried again: whatever happens later it is not in the repo, and the server
    does not hand it out. *)
Theorem C112_lost : forall E g S (ops : store_ops S) a st b p c ua ub, server_history E g ops true (a ++ st :: b) p -> length ua = length a ->
  In (ORepoCert c) (p_outs st) -> (forall st', In st' (a ++ b) -> ~ In (ORepoCert c) (p_outs st')) ->
  ~ in_repo (a ++ st :: b) (ua ++ false :: ub) (ORepoCert c) /\ forall st', In st' b -> ~ handed_out (p_outs st') c.
Proof. exact repo_lost. Qed.
Print Assumptions C112_lost.
(** So a requester can be told of success, with the name of a certificate that is in no repo and that the server does not answer for. *)
Theorem C112_refuted : exists tr ca d c m ups s s', server_history toy h_cfg (db_ops toy) true tr (Running ca d []) /\ length ups = length tr /\
  (exists a st, tr = a ++ [st] /\ p_outs st = [OModule m; ORepoCert c]) /\
  on_challenge_response toy s (x_rin x_now 6) m = (Ok tt, s') /\ rs_status s' = ST_SUCCESS /\ rs_issued s' = c_name c /\
  ~ in_repo tr ups (ORepoCert c) /\ forall i, pstep toy h_cfg (db_ops toy) true (Running ca d []) (PvInterest i (fst (gen_cert_fetch s'))) = Some (Running ca d [], []).
Proof. exact r_lost. Qed.
Print Assumptions C112_refuted.
Example C112_case : server_history toy h_cfg (db_ops toy) true (r_tr0 ++ r_last :: []) (Running r_ca r_d []) /\ In (ORepoCert r_c) (p_outs r_last) /\
  (forall st', In st' (r_tr0 ++ []) -> ~ In (ORepoCert r_c) (p_outs st')) /\ in_repo r_tr [true; true; true; true] (ORepoCert r_c).
Proof.
  split; [exact r_runs|]. split; [rewrite r_outs; right; left; reflexivity|]. split; [exact r_again|]. apply repo_exact. exists 3%nat, r_last. split; [reflexivity|]. split; [reflexivity|].
  split; [rewrite r_outs; right; left; reflexivity|right; exists r_c; reflexivity].
Qed.
