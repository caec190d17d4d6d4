(** What somebody else can learn about a pending request: theorems C131.  Vocabulary in Spec_Outsider.v:
    [same_but]: two states of the CA that differ in one request only; [not_the_owner]: no CHALLENGE Interest for the
    request is signed with that key; [same_seen]: the same event with the same effects. *)
From Verif Require Import TraceWitness CaWitness CrashWitness OutsiderFacts OutsiderWitness.
Local Open Scope N_scope.

(** ** C131: strangers learn nothing about a pending request *)
(** Replace a pending request by any other under its ID: as long as nobody who holds the key of the one or the other
    goes on with it, the CA does exactly the same, whatever it gets from whom, with crashes and restarts. *)
Theorem C131_unseen_partial : forall E g S (ops : store_ops S) s s' id tr s2, ca_at E g ops s -> ca_at E g ops s' -> same_but ops id s s' -> steps E g ops s tr s2 ->
  (forall r, pending ops s id = Some r \/ pending ops s' id = Some r -> not_the_owner E g id (public_key (rq_cert r)) tr) -> no_add id tr ->
  exists tr' s2', steps E g ops s' tr' s2' /\ Forall2 same_seen tr tr' /\ same_but ops id s2 s2'.
Proof. exact unseen. Qed.
Print Assumptions C131_unseen_partial.
(** A request before its challenge, and in a pin challenge; a stranger tries it, and another customer comes. *)
Example C131_case : ca_at toy w_cfg mem_ops (fst w_ca1) /\ ca_at toy w_cfg mem_ops (fst n_ca2) /\ same_but mem_ops z_id (fst w_ca1) (fst n_ca2) /\
  steps toy w_cfg mem_ops (fst w_ca1) [q_e1; q_e2] (fst q_ca2) /\
  (forall r, pending mem_ops (fst w_ca1) z_id = Some r \/ pending mem_ops (fst n_ca2) z_id = Some r -> not_the_owner toy w_cfg z_id (public_key (rq_cert r)) [q_e1; q_e2]) /\
  no_add z_id [q_e1; q_e2] /\ names_request w_cfg z_id u_forged /\
  pending mem_ops (fst w_ca1) z_id <> pending mem_ops (fst n_ca2) z_id /\ length (puts (snd q_ca1)) = 1%nat /\ length (puts (snd q_ca2)) = 1%nat /\ pending mem_ops (fst q_ca2) u_id <> None.
Proof.
  split; [exact w_at1|]. split; [exact k_at2|]. split; [exact q_but|]. split; [exact q_steps|]. split; [exact q_foreign|]. split; [exact q_no_add|].
  split; [exact u_forged_names|]. split; [exact q_apart|exact q_replies].
Qed.
(** With SQLite the ID cannot be taken by anybody else in between, and in both runs the request is as it was. *)
Theorem C131_sqlite_partial : forall E g s s' id r r' tr s2, ca_at E g (db_ops E) s -> ca_at E g (db_ops E) s' -> same_but (db_ops E) id s s' ->
  pending (db_ops E) s id = Some r -> pending (db_ops E) s' id = Some r' -> steps E g (db_ops E) s tr s2 ->
  not_the_owner E g id (public_key (rq_cert r)) tr -> not_the_owner E g id (public_key (rq_cert r')) tr ->
  exists tr' s2', steps E g (db_ops E) s' tr' s2' /\ Forall2 same_seen tr tr' /\ same_but (db_ops E) id s2 s2' /\
    pending (db_ops E) s2 id = Some r /\ pending (db_ops E) s2' id = Some r' /\ no_add id tr.
Proof. exact unseen_sqlite. Qed.
Print Assumptions C131_sqlite_partial.
(** The same stranger, and a restart. *)
Example C131_sqlite_case : ca_at toy x_cfg (db_ops toy) (fst x_ca1) /\ ca_at toy x_cfg (db_ops toy) (fst x_ca2) /\ same_but (db_ops toy) z_id (fst x_ca1) (fst x_ca2) /\
  (pending (db_ops toy) (fst x_ca1) z_id = Some q_r /\ pending (db_ops toy) (fst x_ca2) z_id = Some q_r' /\ q_r <> q_r') /\
  steps toy x_cfg (db_ops toy) (fst x_ca1) [q_e3; q_e4] q_ca4 /\
  (not_the_owner toy x_cfg z_id (public_key (rq_cert q_r)) [q_e3; q_e4] /\ not_the_owner toy x_cfg z_id (public_key (rq_cert q_r')) [q_e3; q_e4]) /\
  length (puts (snd q_ca3)) = 1%nat /\ names_request x_cfg z_id u_forged.
Proof. split; [exact x_at1|]. split; [exact x_at2|]. split; [exact q_but_db|]. split; [exact q_pending|]. split; [exact q_steps_db|]. split; [exact q_foreign_db|exact q_reply_db]. Qed.
(** But anybody can tell whether there is a request under an ID: an Interest that names it and is not signed with its
    key gets "bad signature" if there is one, and "invalid parameter" if there is none. *)
Theorem C131_refuted : forall E g S (ops : store_ops S) s s' i x id r, ca_at E g ops s -> ca_at E g ops s' -> names_request g id x ->
  pending ops s id = Some r -> ~ signed_by E x (public_key (rq_cert r)) -> pending ops s' id = None ->
  exists d d', step E g ops s (EvInterest i x) = Some (s, [EPut d]) /\ step E g ops s' (EvInterest i x) = Some (s', [EPut d']) /\
    error_reply E g x (3 (* bad signature *)) d /\ error_reply E g x (4 (* invalid parameter *)) d' /\ d <> d'.
Proof. exact told_apart. Qed.
Print Assumptions C131_refuted.
Example C131_told_case : ca_at toy w_cfg mem_ops (fst w_ca1) /\ ca_at toy w_cfg mem_ops w_ca0 /\ names_request w_cfg z_id u_forged /\
  pending mem_ops (fst w_ca1) z_id = Some w_pending /\ ~ signed_by toy u_forged (public_key (rq_cert w_pending)) /\ pending mem_ops w_ca0 z_id = None.
Proof. split; [exact w_at1|]. split; [exact w_at0|]. split; [exact u_forged_names|]. split; [vm_compute; reflexivity|]. split; [exact u_forged_unsigned|reflexivity]. Qed.
