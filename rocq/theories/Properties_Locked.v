(** C119: a CA whose database cannot be written, or not used at all, for a while.  Vocabulary in Spec_Locked.v. *)
From Verif Require Import LockedWitness.
Local Open Scope N_scope.

(** While the database cannot be written ([rd]: but can be read), nothing stored changes, *)
Theorem C119_kept : forall E g rd s i x s1 es, wstep E g (db_ops E) s (WLocked rd i x) = Some (s1, es) -> ca_store s1 = ca_store s.
Proof. exact locked_kept. Qed.
Print Assumptions C119_kept.
Example C119_kept_case : exists s1 es, wstep toy x_cfg (db_ops toy) (fst x_ca3) (WLocked true lk_i1 lk_x) = Some (s1, es) /\ puts es <> [].
Proof. exact lk_steps. Qed.
(** and an Interest is handled as otherwise, except that one that would add a request is answered with an error, and one that would update a request is not answered;
    when it cannot be read either, a CHALLENGE Interest is answered as if there were no such request. *)
Theorem C119_answers : forall E g rd s i x es o, on_interest E g (db_ops E) s i x = (es, o) ->
  (on_interest_locked E g (db_ops E) rd s i x = (es, o) /\ (forall r, ~ In (EAdd r) es) /\ (forall r, ~ In (EUpdate r) es)) \/
  (exists r d, In (EAdd r) es /\ on_interest_locked E g (db_ops E) rd s i x = ([EPut d], Ok tt) /\ error_reply E g x (4 (* invalid parameter *)) d) \/
  (exists a r b, es = a ++ EUpdate r :: b /\ on_interest_locked E g (db_ops E) rd s i x = (a, Exn) /\ Forall is_mail a) \/
  (rd = false /\ addressed g VChallenge (i_name x) /\ exists d, on_interest_locked E g (db_ops E) rd s i x = ([EPut d], Ok tt) /\ error_reply E g x 4 d).
Proof. exact locked_answers. Qed.
Print Assumptions C119_answers.
Example C119_answers_case : exists r b, on_interest toy x_cfg (db_ops toy) (fst x_ca2) (x_inputs (x_now + sec 20) 3) (the_interest x_chal2) = ([EUpdate r] ++ b, Ok tt) /\
  on_interest_locked toy x_cfg (db_ops toy) true (fst x_ca2) (x_inputs (x_now + sec 20) 3) (the_interest x_chal2) = ([], Exn).
Proof. exact lk_update. Qed.
Example C119_answers_case2 : exists d, on_interest_locked toy x_cfg (db_ops toy) false (fst x_ca3) lk_i1 lk_x = ([EPut d], Ok tt) /\ fst (on_interest toy x_cfg (db_ops toy) (fst x_ca3) lk_i1 lk_x) = lk_es lk_1.
Proof. exact lk_unread. Qed.
(** Every state is one of a history in which the database can always be written, made of events of this one and restarts; so what is claimed of all states holds too. *)
Theorem C119_reach : forall E g tr s, locked_history E g tr s -> exists tr', thins tr tr' /\ ca_history E g (db_ops E) tr' s.
Proof. exact history_thinned. Qed.
Print Assumptions C119_reach.
Example C119_reach_case : locked_history toy x_cfg (map fine [x_e1; x_e2; x_e3] ++ [lk_st lk_i1 lk_1; lk_st lk_i2 lk_2]) (fst x_ca3).
Proof. exact lk_history. Qed.
(** Every certificate is issued by a step of such a history; so what is claimed of each issued certificate on its own holds too (C22, C26, C28). *)
Theorem C119_issued : forall E g tr st s c, locked_history E g (tr ++ [st]) s -> In (EIssue c) (w_effs st) ->
  exists tr' s', thins tr tr' /\ ca_history E g (db_ops E) (tr' ++ [HStep (w_pre st) (unlocked (w_ev st)) (w_effs st) s']) s'.
Proof. exact issue_transfer. Qed.
Print Assumptions C119_issued.
Example C119_issued_case : exists tr st s c, locked_history toy x_cfg (tr ++ [st]) s /\ is_locked (w_ev st) /\ In (EIssue c) (w_effs st).
Proof. exact lk_issue. Qed.
(** What is claimed of several steps does not hold.  One certificate for a request (C25): the Interest for which a certificate is issued
    is issued another each time it arrives, *)
Theorem C119_once_refuted : forall E g s x is, ca_at E g (db_ops E) s ->
  Forall (fun i => exists s1 es c, step E g (db_ops E) s (EvInterest i x) = Some (s1, es) /\ In (EIssue c) es /\ puts es <> []) is ->
  exists tr, wsteps E g (db_ops E) s tr s /\
    Forall2 (fun i st => w_ev st = WLocked true i x /\ puts (w_effs st) <> [] /\ (exists c, In (EIssue c) (w_effs st)) /\ exists s1, step E g (db_ops E) s (EvInterest i x) = Some (s1, w_effs st)) is tr.
Proof. exact many_certificates. Qed.
Print Assumptions C119_once_refuted.
Example C119_once_refuted_case : ca_at toy x_cfg (db_ops toy) (fst x_ca3) /\
  Forall (fun i => exists s1 es c, step toy x_cfg (db_ops toy) (fst x_ca3) (EvInterest i lk_x) = Some (s1, es) /\ In (EIssue c) es /\ puts es <> []) [lk_i1; lk_i2].
Proof. exact lk_issues. Qed.
Example C119_once_refuted_case2 : exists st1 st2 i1 i2 x c1 c2, locked_history toy x_cfg (map fine [x_e1; x_e2; x_e3] ++ st1 :: [] ++ st2 :: []) (fst x_ca3) /\
  w_handles st1 i1 x /\ names_request x_cfg z_id x /\ In (EIssue c1) (w_effs st1) /\ puts (w_effs st1) <> [] /\ w_handles st2 i2 x /\ In (EIssue c2) (w_effs st2) /\ c1 <> c2.
Proof. exact lk_once. Qed.
(** the tries of a request (C23): when one is left, any number of wrong codes is examined, *)
Theorem C119_tries_refuted : forall E g s id r cs code l, ca_at E g (db_ops E) s -> pending (db_ops E) s id = Some r -> rq_cs r = Some cs -> sec_get (bs "code") (cs_secrets cs) = Some code -> cs_tries cs = 1 ->
  Forall (fun ix => names_request g id (snd ix) /\ signed_by E (snd ix) (public_key (rq_cert r)) /\
    exists params ty given, acceptable E r (snd ix) params /\ selects params ty /\ guesses (fst ix) params cs ty given /\ given <> code) l ->
  exists tr, wsteps E g (db_ops E) s tr s /\
    Forall2 (fun ix st => w_ev st = WLocked true (fst ix) (snd ix) /\ exists d, In (EPut d) (w_effs st) /\ error_reply E g (snd ix) (7 (* out of tries *)) d) l tr.
Proof. exact many_guesses. Qed.
Print Assumptions C119_tries_refuted.
Example C119_tries_refuted_case : ca_at toy x_cfg (db_ops toy) (fst lk_ca4) /\ pending (db_ops toy) (fst lk_ca4) z_id = Some lk_r /\ rq_cs lk_r = Some lk_cs /\ sec_get (bs "code") (cs_secrets lk_cs) = Some x_code /\ cs_tries lk_cs = 1 /\
  Forall (fun ix => names_request x_cfg z_id (snd ix) /\ signed_by toy (snd ix) (public_key (rq_cert lk_r)) /\
    exists params ty given, acceptable toy lk_r (snd ix) params /\ selects params ty /\ guesses (fst ix) params lk_cs ty given /\ given <> x_code) [(lk_i2, lk_g1); (lk_i2, lk_g2)].
Proof. exact lk_guesses. Qed.
(** and the initialization vectors of a request (C30): two different replies are encrypted with one key and one vector. *)
Theorem C119_iv_refuted : exists g tr st1 st2 s id key d1 d2 iv l1 l2, locked_history toy g (tr ++ [st1; st2]) s /\ In (EPut d1) (w_effs st1) /\ In (EPut d2) (w_effs st2) /\
  wire_iv (d_content d1) = Some iv /\ wire_iv (d_content d2) = Some iv /\ reply_opens toy key id d1 l1 /\ reply_opens toy key id d2 l2 /\ l1 <> l2.
Proof. exact iv_twice. Qed.
Print Assumptions C119_iv_refuted.
(** What holds: after a certificate issued while the database could be written, no other is issued for the request unless one with its identifier is added again. *)
Theorem C119_once_partial : forall E g a st1 b st2 c s id i1 x1 i2 x2 c1 c2, locked_history E g (a ++ st1 :: b ++ st2 :: c) s -> ~ is_locked (w_ev st1) ->
  w_handles st1 i1 x1 -> names_request g id x1 -> In (EIssue c1) (w_effs st1) -> puts (w_effs st1) <> [] ->
  w_handles st2 i2 x2 -> names_request g id x2 -> In (EIssue c2) (w_effs st2) -> ~ Forall (fun st => ~ w_adds id st) b.
Proof. exact one_certificate_locked. Qed.
Print Assumptions C119_once_partial.
Example C119_once_partial_case : exists st s c, locked_history toy x_cfg (map fine [x_e1; x_e2; x_e3] ++ [st]) s /\ ~ is_locked (w_ev st) /\ In (EIssue c) (w_effs st) /\ puts (w_effs st) <> [].
Proof. exact lk_fine. Qed.
