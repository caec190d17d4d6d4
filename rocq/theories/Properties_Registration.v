(** C115: the registration of the server's prefix. *)
From Verif Require Import RegWitness.
Local Open Scope N_scope.

(** ** C115: a CA server that runs answers the Interests for its CA *)
(** Not if the registration of its prefix failed.  It then runs on as it is, and whatever Interest it gets, the CA module says nothing, until somebody ends the process. *)
Theorem C115_refuted : forall E g S (ops : store_ops S) repo a s0 os0 s1 w s, reg_history E g ops repo (a ++ GStep s0 (RvAnswer false) os0 s1 :: w) s -> no_start w ->
  Forall (fun st => module_packets (g_outs st) = [] /\ (repo = true -> g_outs st = []) /\ forall i x, g_ev st = RvEvent (PvInterest i x) -> g_post st = s1) w /\
  (s = s1 \/ exists p, snd s = Down p).
Proof. exact refused_silent. Qed.
Print Assumptions C115_refuted.
(** A NEW Interest to such a server; a registered one answers it. *)
Example C115_refuted_case : reg_history toy h_cfg (db_ops toy) false gw_no (Refused, fst o_1) /\ module_packets (g_outs (nth 3 gw_ok (GStep (Waiting, o_0) (RvAnswer true) [] (Waiting, o_0)))) <> [].
Proof. split; [exact gw_refused|]. vm_compute. discriminate. Qed.
(** All that is left of a server whose prefix is not registered is its own filter: without a repo it gives the packet with its profile to Interests under the CA's prefix
    that begin the name of the packet, and to no others. *)
Theorem C115_unregistered : forall E g S (ops : store_ops S) repo tr r ca d cache i x, reg_history E g ops repo tr (r, Running ca d cache) -> r <> Registered ->
  exists os, rstep E g ops repo (r, Running ca d cache) (RvEvent (PvInterest i x)) = Some ((r, Running ca d cache), os) /\
    (repo = false /\ begins (p_prefix (cfp g)) (i_name x) /\ begins (i_name x) (d_name d) /\ os = [OServed (SProfile d)] \/
     ~ (repo = false /\ begins (p_prefix (cfp g)) (i_name x) /\ begins (i_name x) (d_name d)) /\ os = []).
Proof. exact unregistered_own. Qed.
Print Assumptions C115_unregistered.
Example C115_unregistered_case : exists ca, fst o_1 = Running ca o_d [] /\ reg_history toy h_cfg (db_ops toy) false gw_no (Refused, fst o_1) /\ begins (p_prefix (cfp h_cfg)) (d_name o_d).
Proof. exact gw_own. Qed.
(** The module answers only between a successful registration and the end of that process, *)
Theorem C115_answers : forall E g S (ops : store_ops S) repo tr st s, reg_history E g ops repo (tr ++ [st]) s -> module_packets (g_outs st) <> [] ->
  exists a st0 b, tr = a ++ st0 :: b /\ g_ev st0 = RvAnswer true /\ no_start b.
Proof. exact answers_registered. Qed.
Print Assumptions C115_answers.
(** and then the server deals with every event as the server without registration would. *)
Theorem C115_serves_partial : forall E g S (ops : store_ops S) repo a st b s ev, reg_history E g ops repo (a ++ st :: b) s -> g_ev st = RvAnswer true -> no_start b -> (forall key i, ev <> PvStart key i) ->
  rstep E g ops repo s (RvEvent ev) = match pstep E g ops repo (snd s) ev with Some (p, os) => Some ((Registered, p), os) | None => None end.
Proof. exact serves_registered. Qed.
Print Assumptions C115_serves_partial.
(** What holds of every life of the server without registration holds here: Interests that nobody heard have not come. *)
Theorem C115_life : forall E g S (ops : store_ops S) repo tr s, reg_history E g ops repo tr s -> exists tr', server_history E g ops repo tr' (snd s) /\ heard tr tr'.
Proof. exact reg_life. Qed.
Print Assumptions C115_life.
(** Started; a NEW Interest not heard; the registration; the NEW Interest answered. *)
Example C115_case : reg_history toy h_cfg (db_ops toy) false gw_ok (Registered, fst o_2) /\ reg_history toy h_cfg (db_ops toy) false (firstn 2 gw_ok ++ nth 2 gw_ok (GStep (Waiting, o_0) (RvAnswer true) [] (Waiting, o_0)) :: skipn 3 gw_ok) (Registered, fst o_2) /\
  g_ev (nth 2 gw_ok (GStep (Waiting, o_0) (RvAnswer false) [] (Waiting, o_0))) = RvAnswer true /\ no_start (skipn 3 gw_ok).
Proof. split; [exact gw_registered|]. split; [exact gw_registered|]. split; [reflexivity|]. constructor; [discriminate|constructor]. Qed.
