(** C103: the mails a CA sends. *)
From Verif Require Import MailsFacts MailsWitness.
Local Open Scope N_scope.

(** ** C103: mails and requests *)
(** A mail is the first effect of a CHALLENGE Interest that the key of an accepted request signed, that selects the email challenge under the
    request's session key, and that is the first to start a challenge; it goes to the address in it, with the code just drawn. *)
Theorem C103_cause : forall E g S (ops : store_ops S) tr st s cmd, ca_history E g ops (tr ++ [st]) s -> In (EEmail cmd) (h_effs st) ->
  exists id r i params addr code a1 new a2 rt, pending ops (h_pre st) id = Some r /\ rq_cs r = None /\
    tr = a1 ++ new :: a2 /\ accepts E g id rt new (rq_key r) (rq_cert r) /\ no_add id a2 /\
    asks E g id (rq_key r) (rq_cert r) st i params (bs "email") /\ get T_ParameterValue params = Some addr /\ gen_code (in_words i) = Ok code /\
    cmd = email_command E (cc_script (cf_chal g)) (t_val addr) code r /\ exists rest, h_effs st = EEmail cmd :: rest /\ ~ Exists is_mail rest.
Proof. exact mail_cause. Qed.
Print Assumptions C103_cause.
Example C103_cause_case : exists cmd, ca_history toy w_cfg mem_ops ([w_e1] ++ [w_e2]) (fst w_ca2) /\ In (EEmail cmd) (h_effs w_e2).
Proof. eexists. split; [exact w_h2|left; reflexivity]. Qed.
(** For any set of requests (one of them, or all): no more mails than requests accepted and mails in vain, that is mails after which the CA
    died or failed before it recorded the challenge. *)
Theorem C103_count_partial : forall E g S (ops : store_ops S) (these : bytes -> Prop) tr s m a f, ca_history E g ops tr s ->
  tally (fun st => exists id, these id /\ mails g id st) tr m -> tally (fun st => exists id, these id /\ adds id st) tr a ->
  tally (fun st => exists id, these id /\ mails_in_vain g id st) tr f -> (m <= a + f)%nat.
Proof. exact mails_bounded. Qed.
Print Assumptions C103_count_partial.
Example C103_count_case : ca_history toy w_cfg mem_ops [w_e1; w_e2] (fst w_ca2) /\ tally (fun st => exists id, True /\ mails w_cfg id st) [w_e1; w_e2] 1 /\
  tally (fun st => exists id, True /\ adds id st) [w_e1; w_e2] 1 /\ tally (fun st => exists id, True /\ mails_in_vain w_cfg id st) [w_e1; w_e2] 0.
Proof. exact mails_counted. Qed.
(** One request, two mails with different codes: the CA died after the first mail. *)
Theorem C103_count_refuted : exists g tr st1 st2 s id addr code1 code2 r, ca_history toy g (db_ops toy) (tr ++ [st1; st2]) s /\ tally (adds id) (tr ++ [st1; st2]) 1 /\
  mails_in_vain g id st1 /\ mails g id st2 /\ In (EEmail (email_command toy (cc_script (cf_chal g)) addr code1 r)) (h_effs st1) /\
  In (EEmail (email_command toy (cc_script (cf_chal g)) addr code2 r)) (h_effs st2) /\ code1 <> code2.
Proof. exact mailed_twice. Qed.
Print Assumptions C103_count_refuted.
(** The address is not checked: the check of C62 is never made. *)
Theorem C103_address_refuted : exists g tr st s addr code r, ca_history toy g mem_ops (tr ++ [st]) s /\ In (EEmail (email_command toy (cc_script (cf_chal g)) addr code r)) (h_effs st) /\
  is_valid_email addr = false /\ answered st.
Proof. exact mailed_nowhere. Qed.
Print Assumptions C103_address_refuted.
