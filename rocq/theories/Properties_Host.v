(** Several CAs of one account, and ndncert-ca-status: theorems C82 and C83.  Vocabulary in Spec_Host.v. *)
From Verif Require Import HostWitness.
Local Open Scope N_scope.

(** ** C82: ndncert-ca-status shows the pending requests of a CA *)
(** [f] is the content of the database files; the file of the CA is as the CA left it. *)
Theorem C82_lists : forall E iso show g tr s f arg, ca_history E g (db_ops E) tr s -> f (db_file E (p_prefix (cfp g))) = ca_store s -> o_of_uri E arg = Some (p_prefix (cfp g)) ->
  exists rs entries, ca_status E iso show f arg = Ok (line (bs "The pending requests are :") ++ concat entries) /\ Forall2 (describes E) rs entries /\
    NoDup (map rq_id rs) /\ forall r, In r rs <-> pending (db_ops E) s (rq_id r) = Some r.
Proof. exact status_list. Qed.
Print Assumptions C82_lists.
(** The code a request waits for, which the operator of a pin challenge passes on, is in its entry. *)
Theorem C82_code : forall E iso show g tr s f arg id r cs code, ca_history E g (db_ops E) tr s -> f (db_file E (p_prefix (cfp g))) = ca_store s ->
  o_of_uri E arg = Some (p_prefix (cfp g)) -> pending (db_ops E) s id = Some r -> rq_cs r = Some cs -> sec_get (bs "code") (cs_secrets cs) = Some code ->
  exists text entry, ca_status E iso show f arg = Ok text /\ shown text entry /\ describes E r entry /\ shown entry (bs """code"": """ ++ code ++ bs """").
Proof. exact status_code. Qed.
Print Assumptions C82_code.
(** Any request, pending or not, as the library prints it. *)
Theorem C82_printed : forall E iso show r, exists word rest, status_word (rq_status r) word /\
  print_request E iso show r = line (bs "Request's CA name: " ++ o_to_uri E (rq_prefix r)) ++ line (bs "Request's request ID: " ++ to_hex (rq_id r)) ++
    line (bs "Request's status: " ++ word) ++ line (bs "Request's challenge type: " ++ rq_ctype r) ++ rest.
Proof. exact printed. Qed.
Print Assumptions C82_printed.
Example C82_case : exists f r cs, ca_history toy x_cfg (db_ops toy) [x_e1; x_e2] (fst x_ca2) /\ f (db_file toy (p_prefix (cfp x_cfg))) = ca_store (fst x_ca2) /\
  o_of_uri toy (bs "/ndn/site") = Some (p_prefix (cfp x_cfg)) /\ pending (db_ops toy) (fst x_ca2) z_id = Some r /\ rq_cs r = Some cs /\ sec_get (bs "code") (cs_secrets cs) = Some x_code.
Proof. exact x_waiting. Qed.

(** ** C83: CAs of one account keep their requests apart *)
(** Among the CAs that run, no other uses CA [k]'s file: then CA [k] behaves as if it were alone. *)
Theorem C83_apart_partial : forall E gs keys evs h tr k, codec_laws E -> name_fits (p_prefix (cfp (gs k))) ->
  (forall j, In j (map fst evs) -> j <> k -> ca_file E gs j <> ca_file E gs k) -> host_run E gs (host_init keys) evs = Some (h, tr) ->
  exists htr, ca_history E (gs k) (db_ops E) htr (seen_by E gs k h) /\ map (fun st => (h_ev st, h_effs st)) htr = events_of k tr.
Proof. exact apart. Qed.
Print Assumptions C83_apart_partial.
(** CAs with different names have different files if there is no underscore in the names. *)
Theorem C83_names : forall E a b, codec_laws E -> wf_name a -> wf_name b -> ~ In x5f (o_to_uri E a) -> ~ In x5f (o_to_uri E b) -> db_file E a = db_file E b -> a = b.
Proof. exact file_names. Qed.
Print Assumptions C83_names.
Example C83_case : codec_laws toy /\ exists h, name_fits (p_prefix (cfp (v_gs 0%nat))) /\ (forall j, In j (map fst v_evs) -> j <> 0%nat -> ca_file toy v_gs j <> ca_file toy v_gs 0) /\
  host_run toy v_gs (host_init y_keys) v_evs = Some (h, v_tr) /\ length (events_of 0 v_tr) = 2%nat /\ length (events_of 1 v_tr) = 1%nat.
Proof. exact (conj (laws_codec toy toy_laws) v_case). Qed.
(** With one, two CAs may share a file: a CA that accepted no request issues a certificate outside its namespace. *)
Theorem C83_refuted : exists gs keys evs h tr es c, p_prefix (cfp (gs 0%nat)) <> p_prefix (cfp (gs 1%nat)) /\ host_run toy gs (host_init keys) evs = Some (h, tr) /\
  In es (map snd (events_of 1 tr)) /\ In (EIssue c) es /\ is_prefix (p_prefix (cfp (gs 1%nat))) (c_name c) = false /\
  forall es' r, In es' (map snd (events_of 1 tr)) -> ~ In (EAdd r) es'.
Proof. exact y_mixed. Qed.
Print Assumptions C83_refuted.
