(** A crash never leaves a request half done: theorems C135.  [EvCrash i x n key]: the process dies while it handles [x],
    after the first [n] effects of the handler, and is started again (CaTrace.v); [puts]: the packets sent (Spec_Ca.v). *)
From Verif Require Import AtomicFacts AtomicWitness.
Local Open Scope N_scope.

(** ** C135: a crash never leaves a request half done *)
(** Wherever the process dies, the database holds for every ID what it held before the Interest, and then nothing has been
    sent, or what it would hold had the Interest been handled to the end. *)
Theorem C135_whole_partial : forall E g s i x s' full n key s1 es,
  step E g (db_ops E) s (EvInterest i x) = Some (s', full) -> step E g (db_ops E) s (EvCrash i x n key) = Some (s1, es) ->
  ((forall id, pending (db_ops E) s1 id = pending (db_ops E) s id) /\ puts es = []) \/ (forall id, pending (db_ops E) s1 id = pending (db_ops E) s' id).
Proof. exact crash_whole. Qed.
Print Assumptions C135_whole_partial.
(** What a requester has been told survives: once a packet is out, the database holds what the Interest leads to. *)
Theorem C135_told_partial : forall E g s i x s' full n key s1 es,
  step E g (db_ops E) s (EvInterest i x) = Some (s', full) -> step E g (db_ops E) s (EvCrash i x n key) = Some (s1, es) ->
  puts es <> [] -> forall id, pending (db_ops E) s1 id = pending (db_ops E) s' id.
Proof. exact crash_told. Qed.
Print Assumptions C135_told_partial.
(** The same for an Interest whose handling would not end: of two points at which the process may die, the earlier one
    leaves the database as it was, or as the later one does. *)
Theorem C135_points_partial : forall E g s i x n m key key' s1 es s2 es2, (n <= m)%nat ->
  step E g (db_ops E) s (EvCrash i x n key) = Some (s1, es) -> step E g (db_ops E) s (EvCrash i x m key') = Some (s2, es2) ->
  ((forall id, pending (db_ops E) s1 id = pending (db_ops E) s id) /\ puts es = []) \/ (forall id, pending (db_ops E) s1 id = pending (db_ops E) s2 id).
Proof. exact crash_points. Qed.
Print Assumptions C135_points_partial.
(** A right code: the CA dies with the certificate signed and the request still there, or with the reply sent and the
    request deleted. *)
Example C135_case : ca_at toy x_cfg (db_ops toy) (fst x_ca3) /\
  step toy x_cfg (db_ops toy) (fst x_ca3) (EvInterest (x_inputs (x_now + sec 30) 4) (the_interest x_chal3)) = Some (fst x_ca4, snd x_ca4) /\
  step toy x_cfg (db_ops toy) (fst x_ca3) (at_event 1) = Some (fst at_early, snd at_early) /\
  step toy x_cfg (db_ops toy) (fst x_ca3) (at_event 3) = Some (fst at_late, snd at_late) /\ (1 <= 3)%nat /\
  pending (db_ops toy) (fst x_ca3) z_id <> None /\ pending (db_ops toy) (fst x_ca4) z_id = None /\
  length (snd at_early) = 1%nat /\ pending (db_ops toy) (fst at_early) z_id <> None /\
  length (puts (snd at_late)) = 1%nat /\ pending (db_ops toy) (fst at_late) z_id = None.
Proof. split; [exact x_at3|]. split; [exact at_done|]. split; [exact at_early_step|]. split; [exact at_late_step|]. split; [auto|exact at_cases]. Qed.
(** Not with the storage in memory: a request the CA has acknowledged is gone when the process dies. *)
Theorem C135_refuted : exists g s i x s' full n key s1 es id, ca_at toy g mem_ops s /\
  step toy g mem_ops s (EvInterest i x) = Some (s', full) /\ step toy g mem_ops s (EvCrash i x n key) = Some (s1, es) /\
  puts es <> [] /\ pending mem_ops s' id <> None /\ pending mem_ops s1 id = None.
Proof. exact told_in_vain. Qed.
Print Assumptions C135_refuted.
