(** C103: a mail in vain, and a mail to no address. *)
From Verif Require Export MailsFacts TraceWitness EmailScript.
Local Open Scope N_scope.

(** ** The CA dies after the mail; the requester repeats the Interest and a second code is mailed *)
Definition mv_crash : event := EvCrash (x_inputs (x_now + sec 10) 2) (fst w_mail) 1 (bs "second id key").
Definition mv_ca2 : ca_state db * list eff := Eval vm_compute in
  match step toy x_cfg (db_ops toy) (fst x_ca1) mv_crash with Some r => r | None => (x_ca0, []) end.
Definition mv_ca3 := Eval vm_compute in x_go (fst mv_ca2) (x_inputs (x_now + sec 20) 777777) (fst w_mail).
Lemma mv_step2 : step toy x_cfg (db_ops toy) (fst x_ca1) mv_crash = Some mv_ca2.
Proof. vm_compute. reflexivity. Qed.
Lemma mv_step3 : step toy x_cfg (db_ops toy) (fst mv_ca2) (EvInterest (x_inputs (x_now + sec 20) 777777) (fst w_mail)) = Some mv_ca3.
Proof. vm_compute. reflexivity. Qed.
Definition mv_e2 := HStep (fst x_ca1) mv_crash (snd mv_ca2) (fst mv_ca2).
Definition mv_e3 := HStep (fst mv_ca2) (EvInterest (x_inputs (x_now + sec 20) 777777) (fst w_mail)) (snd mv_ca3) (fst mv_ca3).
Lemma mv_hist : ca_history toy x_cfg (db_ops toy) [x_e1; mv_e2; mv_e3] (fst mv_ca3).
Proof. exact (history_more _ _ _ _ [_; _] _ _ _ _ (history_more _ _ _ _ [_] _ _ _ _ x_h1 (some_pair _ _ _ _ mv_step2)) (some_pair _ _ _ _ mv_step3)). Qed.
Lemma w_mail_names : names_request x_cfg z_id (fst w_mail).
Proof. names_tac. Qed.
Definition mv_code2 : bytes := Eval vm_compute in match gen_code (in_words (x_inputs x_now 777777)) with Ok c => c | _ => [] end.
Lemma mailed_twice : exists g tr st1 st2 s id addr code1 code2 r, ca_history toy g (db_ops toy) (tr ++ [st1; st2]) s /\ tally (adds id) (tr ++ [st1; st2]) 1 /\
  mails_in_vain g id st1 /\ mails g id st2 /\ In (EEmail (email_command toy (cc_script (cf_chal g)) addr code1 r)) (h_effs st1) /\
  In (EEmail (email_command toy (cc_script (cf_chal g)) addr code2 r)) (h_effs st2) /\ code1 <> code2.
Proof.
  exists x_cfg, [x_e1], mv_e2, mv_e3, (fst mv_ca3), z_id, w_addr, x_code, mv_code2, x_r2.
  split; [exact mv_hist|]. split.
  - apply tally_yes; [eexists; split; [left; reflexivity|vm_compute; reflexivity]|]. apply tally_no; [intros (r & IN & _); cbn in IN; repeat (destruct IN as [IN|IN]; [discriminate|]); exact IN|].
    apply tally_no; [intros (r & IN & _); cbn in IN; repeat (destruct IN as [IN|IN]; [discriminate|]); exact IN|]. constructor.
  - split; [split; [exists (x_inputs (x_now + sec 10) 2), (fst w_mail); eexists; split; [right; do 2 eexists; reflexivity|split; [exact w_mail_names|left; reflexivity]]|intros r IN; cbn in IN; repeat (destruct IN as [IN|IN]; [discriminate|]); exact IN]|].
    split; [exists (x_inputs (x_now + sec 20) 777777), (fst w_mail); eexists; split; [left; reflexivity|split; [exact w_mail_names|left; reflexivity]]|].
    split; [left; vm_compute; reflexivity|]. split; [left; vm_compute; reflexivity|discriminate].
Qed.

(** ** A mail to a text that is no address *)
Definition mn_mail := Eval vm_compute in z_chal [] [Tlv T_SelectedChallenge (bs "email"); Tlv T_ParameterKey (bs "email"); Tlv T_ParameterValue (bs "no address")].
Definition mn_ca2 := Eval vm_compute in w_go (fst w_ca1) (x_inputs (x_now + sec 10) 2) (fst mn_mail).
Lemma mn_step2 : step toy w_cfg mem_ops (fst w_ca1) (EvInterest (x_inputs (x_now + sec 10) 2) (fst mn_mail)) = Some mn_ca2.
Proof. vm_compute. reflexivity. Qed.
Definition mn_e2 := HStep (fst w_ca1) (EvInterest (x_inputs (x_now + sec 10) 2) (fst mn_mail)) (snd mn_ca2) (fst mn_ca2).
Lemma mailed_nowhere : exists g tr st s addr code r, ca_history toy g mem_ops (tr ++ [st]) s /\ In (EEmail (email_command toy (cc_script (cf_chal g)) addr code r)) (h_effs st) /\
  is_valid_email addr = false /\ answered st.
Proof.
  exists w_cfg, [w_e1], mn_e2, (fst mn_ca2), (bs "no address"), x_code, x_r2. split; [exact (history_more _ _ _ _ [_] _ _ _ _ w_h1 (some_pair _ _ _ _ mn_step2))|].
  split; [left; vm_compute; reflexivity|]. split; [vm_compute; reflexivity|]. discriminate.
Qed.

Lemma w_mail_names' : names_request w_cfg z_id (fst w_mail).
Proof. names_tac. Qed.
Lemma mails_counted : ca_history toy w_cfg mem_ops [w_e1; w_e2] (fst w_ca2) /\ tally (fun st => exists id, True /\ mails w_cfg id st) [w_e1; w_e2] 1 /\
  tally (fun st => exists id, True /\ adds id st) [w_e1; w_e2] 1 /\ tally (fun st => exists id, True /\ mails_in_vain w_cfg id st) [w_e1; w_e2] 0.
Proof.
  split; [exact w_h2|]. split; [|split].
  - apply tally_no; [intros (id & _ & i & x & cmd & _ & _ & IN); cbn in IN; repeat (destruct IN as [IN|IN]; [discriminate|]); exact IN|].
    apply tally_yes; [exists z_id; split; [exact I|]; do 3 eexists; split; [left; reflexivity|]; split; [exact w_mail_names'|left; reflexivity]|constructor].
  - apply tally_yes; [eexists; split; [exact I|]; eexists; split; [left; reflexivity|reflexivity]|].
    apply tally_no; [intros (id & _ & r & IN & _); cbn in IN; repeat (destruct IN as [IN|IN]; [discriminate|]); exact IN|constructor].
  - apply tally_no; [intros (id & _ & (i & x & cmd & _ & _ & IN) & _); cbn in IN; repeat (destruct IN as [IN|IN]; [discriminate|]); exact IN|].
    apply tally_no; [intros (id & _ & _ & N); eapply N; right; left; reflexivity|constructor].
Qed.
