(** C109: a CA keeps a ledger. *)
From Verif Require Import LedgerFacts LedgerWitness.
Local Open Scope N_scope.

(** ** C109: seen from one request ID, a CA with either storage is the machine of [Spec_Ledger] *)
(** Every step of every history performs one move of the machine on the request (and a restart may lose it), and after every
    step what is stored is what the machine holds. *)
Theorem C109_ledger : forall E g S (ops : store_ops S) tr s id, ca_history E g ops tr s ->
  exists l e, walks E g ops id None tr l e /\ stored_as E (pending ops s id) e.
Proof. intros E g S ops. exact (keeps_ledger E g ops). Qed.
Print Assumptions C109_ledger.
(** Every certificate signed is a move of the machine for the request named, whose moves so far are: it was accepted, a
    challenge was begun, at most two wrong answers; the answer fits the challenge, and the certificate is for what was
    asked. *)
Theorem C109_accounted : forall E g S (ops : store_ops S) a st b s c, ca_history E g ops (a ++ st :: b) s -> In (EIssue c) (h_effs st) ->
  exists id i x l m mv an c0, handles st i x /\ names_request g id x /\ walks E g ops id None a l m /\ performs E g id st m mv /\ (mv = Grant an c \/ mv = Sign an c) /\
    certifies E g c0 c /\ led_to E RT_NEW c0 an l.
Proof. exact @accounted. Qed.
Print Assumptions C109_accounted.
Example C109_case : ca_history toy x_cfg (db_ops toy) ([x_e1; x_e2; x_e3] ++ x_e4 :: []) (fst x_ca4) /\ In (EIssue x_cert) (h_effs x_e4) /\
  ca_history toy x_cfg (db_ops toy) ([x_e1; x_e2; x_e3] ++ [c_e4] ++ [c_e5]) (fst c_ca5) /\ (exists c, h_effs c_e4 = [EIssue c]).
Proof. exact lg_histories. Qed.
(** The steps of a CA make a run of the machine. *)
Theorem C109_run : forall S E g (ops : store_ops S) id m tr l m', walks E g ops id m tr l m' -> ledger_run E g m l m'.
Proof. exact @walks_run. Qed.
Print Assumptions C109_run.
(** In every run of the machine, a certificate is granted only after that, and a revocation too. *)
Theorem C109_granted : forall E g before a c after m, ledger_run E g None (before ++ Grant a c :: after) m \/ ledger_run E g None (before ++ Sign a c :: after) m ->
  exists c0, certifies E g c0 c /\ led_to E RT_NEW c0 a before.
Proof. exact run_granted. Qed.
Print Assumptions C109_granted.
Theorem C109_revoked : forall E g before a after m, ledger_run E g None (before ++ Revoke a :: after) m -> exists c0, led_to E RT_REVOKE c0 a before.
Proof. exact run_revoked. Qed.
Print Assumptions C109_revoked.
Example C109_run_case : ledger_run toy x_cfg None (lg_moves ++ Grant (GiveCode x_code (x_now + sec 30) 3600) x_cert :: [Idle]) None /\
  ledger_run toy x_cfg None (lg_revoke ++ Revoke (GiveCode x_code (x_now + sec 30) 3600) :: []) None.
Proof. exact lg_runs. Qed.
