(** Concrete histories of a CA for the examples beside the theorems about histories, and counterexamples. *)
From Verif Require Export CaWitness OutcomeFacts.
Local Open Scope N_scope.

Lemma history_more : forall S E g (ops : store_ops S) tr s ev es s', ca_history E g ops tr s -> step E g ops s ev = Some (s', es) ->
  ca_history E g ops (tr ++ [HStep s ev es s']) s'.
Proof.
  intros S E g ops tr s ev es s' [LC NF B (key & H)] ST. constructor; [exact LC|exact NF|exact B|]. exists key. apply steps_app; exists s; split; [exact H|].
  econstructor; [exact ST|constructor].
Qed.
Lemma some_pair : forall A B (p : A * B) o, o = Some p -> o = Some (fst p, snd p).
Proof. intros A B [a b] o H. exact H. Qed.

(** ** NEW, the pin challenge, a wrong code, the right code; SQLite storage *)
Definition x_e1 := HStep x_ca0 (EvInterest (x_inputs x_now 1) x_new_interest) (snd x_ca1) (fst x_ca1).
Definition x_e2 := HStep (fst x_ca1) (EvInterest (x_inputs (x_now + sec 10) 2) (the_interest x_chal1)) (snd x_ca2) (fst x_ca2).
Definition x_e3 := HStep (fst x_ca2) (EvInterest (x_inputs (x_now + sec 20) 3) (the_interest x_chal2)) (snd x_ca3) (fst x_ca3).
Definition x_e4 := HStep (fst x_ca3) (EvInterest (x_inputs (x_now + sec 30) 4) (the_interest x_chal3)) (snd x_ca4) (fst x_ca4).
Lemma x_h0 : ca_history toy x_cfg (db_ops toy) [] x_ca0.
Proof. constructor; [meets|meets|constructor|]. exists (bs "id key"). constructor. Qed.
Lemma x_h1 : ca_history toy x_cfg (db_ops toy) [x_e1] (fst x_ca1).
Proof. exact (history_more _ _ _ _ [] _ _ _ _ x_h0 (some_pair _ _ _ _ x_step1)). Qed.
Lemma x_h2 : ca_history toy x_cfg (db_ops toy) [x_e1; x_e2] (fst x_ca2).
Proof. exact (history_more _ _ _ _ [_] _ _ _ _ x_h1 (some_pair _ _ _ _ x_step2)). Qed.
Lemma x_h3 : ca_history toy x_cfg (db_ops toy) [x_e1; x_e2; x_e3] (fst x_ca3).
Proof. exact (history_more _ _ _ _ [_; _] _ _ _ _ x_h2 (some_pair _ _ _ _ x_step3)). Qed.
Lemma x_h4 : ca_history toy x_cfg (db_ops toy) [x_e1; x_e2; x_e3; x_e4] (fst x_ca4).
Proof. exact (history_more _ _ _ _ [_; _; _] _ _ _ _ x_h3 (some_pair _ _ _ _ x_step4)). Qed.
Definition x_cert : cert := Eval vm_compute in the_issued (snd x_ca4).
Definition x_dbreq (s : ca_state db) : request :=
  match pending (db_ops toy) s z_id with Some r => r | None => Request [] [] 0 0 x_ca_cert [] [] [] [] None end.
Definition x_r2 : request := Eval vm_compute in x_dbreq (fst x_ca2).
Definition x_r3 : request := Eval vm_compute in x_dbreq (fst x_ca3).
Definition the_cs (r : request) : cstate := match rq_cs r with Some c => c | None => CState [] 0 0 0 [] end.
Definition x_cs2 : cstate := Eval vm_compute in the_cs x_r2.
Definition x_cs3 : cstate := Eval vm_compute in the_cs x_r3.
Definition x_p2 : list tlv := [Tlv T_SelectedChallenge (bs "pin"); Tlv T_ParameterKey (bs "code"); Tlv T_ParameterValue (bs "000000")].
Definition x_p3 : list tlv := [Tlv T_SelectedChallenge (bs "pin"); Tlv T_ParameterKey (bs "code"); Tlv T_ParameterValue x_code].
Ltac acceptable_tac :=
  do 5 eexists; repeat (split; [first [vm_compute; reflexivity|vm_compute; discriminate]|]);
  split; [first [left; vm_compute; reflexivity|right; vm_compute; discriminate]|];
  split; [first [left; vm_compute; reflexivity|right; split; vm_compute; [reflexivity|discriminate]]|vm_compute; reflexivity].
Lemma x_accept2 : acceptable toy x_r2 (the_interest x_chal2) x_p2.
Proof. acceptable_tac. Qed.
Lemma x_accept3 : acceptable toy x_r3 (the_interest x_chal3) x_p3.
Proof. acceptable_tac. Qed.

(** ** The same with the in-memory storage and other challenges *)
Definition w_e1 := HStep w_ca0 (EvInterest (x_inputs x_now 1) x_new_interest) (snd w_ca1) (fst w_ca1).
Definition w_e2 := HStep (fst w_ca1) (EvInterest (x_inputs (x_now + sec 10) 2) (fst w_mail)) (snd w_ca2) (fst w_ca2).
Definition w_e3 := HStep (fst w_ca2) (EvInterest (x_inputs (x_now + sec 20) 3) (fst w_code)) (snd w_ca3) (fst w_ca3).
Lemma w_h0 : ca_history toy w_cfg mem_ops [] w_ca0.
Proof. constructor; [meets|meets|constructor|]. exists (bs "id key"). constructor. Qed.
Lemma w_h1 : ca_history toy w_cfg mem_ops [w_e1] (fst w_ca1).
Proof. exact (history_more _ _ _ _ [] _ _ _ _ w_h0 (some_pair _ _ _ _ w_step1)). Qed.
Lemma w_h2 : ca_history toy w_cfg mem_ops [w_e1; w_e2] (fst w_ca2).
Proof. exact (history_more _ _ _ _ [_] _ _ _ _ w_h1 (some_pair _ _ _ _ w_step2)). Qed.
Lemma w_h3 : ca_history toy w_cfg mem_ops [w_e1; w_e2; w_e3] (fst w_ca3).
Proof. exact (history_more _ _ _ _ [_; _] _ _ _ _ w_h2 (some_pair _ _ _ _ w_step3)). Qed.

(** The code of the email challenge, a thousand seconds later, under the name of the pin challenge. *)
Definition d_params : list tlv := [Tlv T_SelectedChallenge (bs "pin"); Tlv T_ParameterKey (bs "code"); Tlv T_ParameterValue x_code].
Definition d_chal := Eval vm_compute in z_chal (snd w_mail) d_params.
Definition d_ca3 := Eval vm_compute in w_go (fst w_ca2) (x_inputs (x_now + sec 1010) 3) (fst d_chal).
Lemma d_step3 : step toy w_cfg mem_ops (fst w_ca2) (EvInterest (x_inputs (x_now + sec 1010) 3) (fst d_chal)) = Some d_ca3.
Proof. vm_compute. reflexivity. Qed.
Definition d_e3 := HStep (fst w_ca2) (EvInterest (x_inputs (x_now + sec 1010) 3) (fst d_chal)) (snd d_ca3) (fst d_ca3).
Lemma d_h3 : ca_history toy w_cfg mem_ops ([w_e1; w_e2] ++ [d_e3]) (fst d_ca3).
Proof. exact (history_more _ _ _ _ [_; _] _ _ _ _ w_h2 (some_pair _ _ _ _ d_step3)). Qed.

(** The pin challenge: a wrong code after 3490 s, then the right one after 6990 s, or two more wrong ones. *)
Definition n_params (code : bytes) : list tlv := [Tlv T_SelectedChallenge (bs "pin"); Tlv T_ParameterKey (bs "code"); Tlv T_ParameterValue code].
Definition n_chal1 := Eval vm_compute in z_chal [] [Tlv T_SelectedChallenge (bs "pin")].
Definition n_chal2 := Eval vm_compute in z_chal (snd n_chal1) (n_params (bs "000000")).
Definition n_chal3 := Eval vm_compute in z_chal (snd n_chal2) (n_params (bs "000001")).
Definition n_chal4 := Eval vm_compute in z_chal (snd n_chal3) (n_params (bs "000002")).
Definition n_right := Eval vm_compute in z_chal (snd n_chal2) (n_params x_code).
Definition n_ca2 := Eval vm_compute in w_go (fst w_ca1) (x_inputs (x_now + sec 10) 2) (fst n_chal1).
Definition n_ca3 := Eval vm_compute in w_go (fst n_ca2) (x_inputs (x_now + sec 3500) 3) (fst n_chal2).
Definition n_ca4 := Eval vm_compute in w_go (fst n_ca3) (x_inputs (x_now + sec 3600) 4) (fst n_chal3).
Definition n_ca5 := Eval vm_compute in w_go (fst n_ca4) (x_inputs (x_now + sec 3700) 5) (fst n_chal4).
Definition n_ca6 := Eval vm_compute in w_go (fst n_ca3) (x_inputs (x_now + sec 7000) 4) (fst n_right).
Lemma n_step2 : step toy w_cfg mem_ops (fst w_ca1) (EvInterest (x_inputs (x_now + sec 10) 2) (fst n_chal1)) = Some n_ca2.
Proof. vm_compute. reflexivity. Qed.
Lemma n_step3 : step toy w_cfg mem_ops (fst n_ca2) (EvInterest (x_inputs (x_now + sec 3500) 3) (fst n_chal2)) = Some n_ca3.
Proof. vm_compute. reflexivity. Qed.
Lemma n_step4 : step toy w_cfg mem_ops (fst n_ca3) (EvInterest (x_inputs (x_now + sec 3600) 4) (fst n_chal3)) = Some n_ca4.
Proof. vm_compute. reflexivity. Qed.
Lemma n_step5 : step toy w_cfg mem_ops (fst n_ca4) (EvInterest (x_inputs (x_now + sec 3700) 5) (fst n_chal4)) = Some n_ca5.
Proof. vm_compute. reflexivity. Qed.
Lemma n_step6 : step toy w_cfg mem_ops (fst n_ca3) (EvInterest (x_inputs (x_now + sec 7000) 4) (fst n_right)) = Some n_ca6.
Proof. vm_compute. reflexivity. Qed.
Definition n_e2 := HStep (fst w_ca1) (EvInterest (x_inputs (x_now + sec 10) 2) (fst n_chal1)) (snd n_ca2) (fst n_ca2).
Definition n_e3 := HStep (fst n_ca2) (EvInterest (x_inputs (x_now + sec 3500) 3) (fst n_chal2)) (snd n_ca3) (fst n_ca3).
Definition n_e4 := HStep (fst n_ca3) (EvInterest (x_inputs (x_now + sec 3600) 4) (fst n_chal3)) (snd n_ca4) (fst n_ca4).
Definition n_e5 := HStep (fst n_ca4) (EvInterest (x_inputs (x_now + sec 3700) 5) (fst n_chal4)) (snd n_ca5) (fst n_ca5).
Definition n_e6 := HStep (fst n_ca3) (EvInterest (x_inputs (x_now + sec 7000) 4) (fst n_right)) (snd n_ca6) (fst n_ca6).
Lemma n_h2 : ca_history toy w_cfg mem_ops [w_e1; n_e2] (fst n_ca2).
Proof. exact (history_more _ _ _ _ [_] _ _ _ _ w_h1 (some_pair _ _ _ _ n_step2)). Qed.
Lemma n_h3 : ca_history toy w_cfg mem_ops [w_e1; n_e2; n_e3] (fst n_ca3).
Proof. exact (history_more _ _ _ _ [_; _] _ _ _ _ n_h2 (some_pair _ _ _ _ n_step3)). Qed.
Lemma n_h6 : ca_history toy w_cfg mem_ops [w_e1; n_e2; n_e3; n_e6] (fst n_ca6).
Proof. exact (history_more _ _ _ _ [_; _; _] _ _ _ _ n_h3 (some_pair _ _ _ _ n_step6)). Qed.
Ltac names_tac := exists 8; eexists; split; [vm_compute; reflexivity|reflexivity].
Ltac opens_tac := do 5 eexists; repeat (split; [vm_compute; reflexivity|]); vm_compute; reflexivity.
Ltac signed_tac := eexists; split; vm_compute; reflexivity.
Ltac selects_tac := eexists; split; vm_compute; reflexivity.
Ltac asks_tac := eexists; split; [left; reflexivity|]; split; [names_tac|]; split; [signed_tac|]; split; [opens_tac|selects_tac].
Lemma d_start : asks toy w_cfg z_id z_key x_creq w_e2 (x_inputs (x_now + sec 10) 2) [Tlv T_SelectedChallenge (bs "email"); Tlv T_ParameterKey (bs "email"); Tlv T_ParameterValue w_addr] (bs "email").
Proof. asks_tac. Qed.
Lemma d_asks : asks toy w_cfg z_id z_key x_creq d_e3 (x_inputs (x_now + sec 1010) 3) d_params (bs "pin").
Proof. asks_tac. Qed.
Lemma n_start : asks toy w_cfg z_id z_key x_creq n_e2 (x_inputs (x_now + sec 10) 2) [Tlv T_SelectedChallenge (bs "pin")] (bs "pin").
Proof. asks_tac. Qed.
Lemma n_asks6 : asks toy w_cfg z_id z_key x_creq n_e6 (x_inputs (x_now + sec 7000) 4) (n_params x_code) (bs "pin").
Proof. asks_tac. Qed.
Lemma late_other_type : exists g tr start st s c id key c0 i0 params0 r cs em i params, ca_history toy g mem_ops (tr ++ [start] ++ [st]) s /\
  asks toy g id key c0 start i0 params0 (bs "email") /\ starts toy (cf_chal g) i0 params0 r (bs "email") cs em /\
  asks toy g id key c0 st i params (bs "pin") /\ In (EIssue c) (h_effs st) /\ (in_t1 i - in_t2 i0 = sec 1000)%Z.
Proof.
  exists w_cfg, [w_e1], w_e2, d_e3, (fst d_ca3), (the_issued (snd d_ca3)), z_id, z_key, x_creq, (x_inputs (x_now + sec 10) 2). eexists. exists p_r1. eexists _, _. exists (x_inputs (x_now + sec 1010) 3), d_params.
  split; [exact d_h3|]. split; [exact d_start|]. split; [eapply start_email; vm_compute; reflexivity|]. split; [exact d_asks|]. split; [left; reflexivity|vm_compute; reflexivity].
Qed.
Lemma late_after_wrong : exists g tr start mid st s c id key c0 i0 params0 r cs em i params, ca_history toy g mem_ops (tr ++ [start] ++ [mid] ++ [st]) s /\
  asks toy g id key c0 start i0 params0 (bs "pin") /\ starts toy (cf_chal g) i0 params0 r (bs "pin") cs em /\
  asks toy g id key c0 st i params (bs "pin") /\ In (EIssue c) (h_effs st) /\ (in_t1 i - in_t2 i0 = sec 6990)%Z.
Proof.
  exists w_cfg, [w_e1], n_e2, n_e3, n_e6, (fst n_ca6), (the_issued (snd n_ca6)), z_id, z_key, x_creq, (x_inputs (x_now + sec 10) 2). eexists. exists p_r1. eexists _, _. exists (x_inputs (x_now + sec 7000) 4), (n_params x_code).
  split; [exact n_h6|]. split; [exact n_start|]. split; [eapply start_pin; vm_compute; reflexivity|]. split; [exact n_asks6|]. split; [left; reflexivity|vm_compute; reflexivity].
Qed.

(** ** An expired certificate: the proof of possession comes an hour after the request *)
Definition p_e2 := HStep (fst w_ca1) (EvInterest (x_inputs (x_now + sec 10) 2) (fst p_chal1)) (snd p_ca2) (fst p_ca2).
Definition p_e3 := HStep (fst p_ca2) (EvInterest (x_inputs (x_now + sec 3610) 3) (fst p_chal2)) (snd p_ca3) (fst p_ca3).
Lemma p_hist : ca_history toy w_cfg mem_ops ([w_e1; p_e2] ++ [p_e3]) (fst p_ca3).
Proof.
  exact (history_more _ _ _ _ [_; _] _ _ _ _ (history_more _ _ _ _ [_] _ _ _ _ w_h1 (some_pair _ _ _ _ p_step2)) (some_pair _ _ _ _ p_step3)).
Qed.
Lemma issued_expired : exists g tr st s c i x nb na, ca_history toy g mem_ops (tr ++ [st]) s /\ handles st i x /\ In (EIssue c) (h_effs st) /\
  c_validity c = Some (nb, na) /\ (na < in_t1 i)%Z.
Proof.
  exists w_cfg, [w_e1; p_e2], p_e3, (fst p_ca3), (the_issued (snd p_ca3)), (x_inputs (x_now + sec 3610) 3), (fst p_chal2), x_now, (x_now + sec 3600)%Z.
  split; [exact p_hist|]. split; [left; reflexivity|]. split; [left; reflexivity|]. split; [vm_compute; reflexivity|]. unfold x_now, sec. cbn [in_t1 x_inputs]. lia.
Qed.

(** ** The process dies between signing the certificate and deleting the request; the same Interest comes again *)
Definition c_crash : event := EvCrash (x_inputs (x_now + sec 30) 4) (the_interest x_chal3) 1 (bs "second id key").
Definition c_ca4 : ca_state db * list eff := Eval vm_compute in
  match step toy x_cfg (db_ops toy) (fst x_ca3) c_crash with Some r => r | None => (x_ca0, []) end.
Definition c_ca5 := Eval vm_compute in x_go (fst c_ca4) (x_inputs (x_now + sec 40) 5) (the_interest x_chal3).
Lemma c_step4 : step toy x_cfg (db_ops toy) (fst x_ca3) c_crash = Some c_ca4.
Proof. vm_compute. reflexivity. Qed.
Lemma c_step5 : step toy x_cfg (db_ops toy) (fst c_ca4) (EvInterest (x_inputs (x_now + sec 40) 5) (the_interest x_chal3)) = Some c_ca5.
Proof. vm_compute. reflexivity. Qed.
Definition c_e4 := HStep (fst x_ca3) c_crash (snd c_ca4) (fst c_ca4).
Definition c_e5 := HStep (fst c_ca4) (EvInterest (x_inputs (x_now + sec 40) 5) (the_interest x_chal3)) (snd c_ca5) (fst c_ca5).
Lemma c_hist : ca_history toy x_cfg (db_ops toy) ([x_e1; x_e2; x_e3] ++ [c_e4] ++ [c_e5]) (fst c_ca5).
Proof.
  exact (history_more _ _ _ _ [_; _; _; _] _ _ _ _ (history_more _ _ _ _ [_; _; _] _ _ _ _ x_h3 (some_pair _ _ _ _ c_step4)) (some_pair _ _ _ _ c_step5)).
Qed.
Lemma x_names3 : names_request x_cfg z_id (the_interest x_chal3).
Proof. names_tac. Qed.
Lemma taken_twice : exists g tr st1 st2 s id x, ca_history toy g (db_ops toy) (tr ++ [st1] ++ [st2]) s /\ takes g id st1 x /\ takes g id st2 x.
Proof.
  exists x_cfg, [x_e1; x_e2; x_e3], c_e4, c_e5, (fst c_ca5), z_id, (the_interest x_chal3). split; [exact c_hist|].
  split; [exists (x_inputs (x_now + sec 30) 4)|exists (x_inputs (x_now + sec 40) 5)].
  - split; [right; do 2 eexists; reflexivity|]. split; [exact x_names3|]. right. left. eexists. left. reflexivity.
  - split; [left; reflexivity|]. split; [exact x_names3|]. right. left. eexists. left. reflexivity.
Qed.

(** ** A bystander sends the requester's first CHALLENGE Interest again *)
Definition r_ca3 := Eval vm_compute in x_go (fst x_ca2) (x_inputs (x_now + sec 15) 3) (the_interest x_chal1).
Lemma r_step3 : step toy x_cfg (db_ops toy) (fst x_ca2) (EvInterest (x_inputs (x_now + sec 15) 3) (the_interest x_chal1)) = Some r_ca3.
Proof. vm_compute. reflexivity. Qed.
Definition r_e3 := HStep (fst x_ca2) (EvInterest (x_inputs (x_now + sec 15) 3) (the_interest x_chal1)) (snd r_ca3) (fst r_ca3).
Lemma r_hist : ca_history toy x_cfg (db_ops toy) ([x_e1; x_e2] ++ [r_e3]) (fst r_ca3).
Proof. exact (history_more _ _ _ _ [_; _] _ _ _ _ x_h2 (some_pair _ _ _ _ r_step3)). Qed.
Lemma replay_destroys : exists g tr st1 st2 s id i1 i2 x, ca_history toy g (db_ops toy) (tr ++ [st1] ++ [st2]) s /\ handles st1 i1 x /\ handles st2 i2 x /\
  pending (db_ops toy) (h_pre st2) id <> None /\ pending (db_ops toy) s id = None.
Proof.
  exists x_cfg, [x_e1], x_e2, r_e3, (fst r_ca3), z_id, (x_inputs (x_now + sec 10) 2), (x_inputs (x_now + sec 15) 3), (the_interest x_chal1). split; [exact r_hist|].
  split; [left; reflexivity|]. split; [left; reflexivity|]. split; vm_compute; [discriminate|reflexivity].
Qed.

(** ** The same certificate request twice: two certificates, with a NEW Interest in between *)
Definition s_ca4 := Eval vm_compute in w_go (fst w_ca3) (x_inputs (x_now + sec 30) 1) x_new_interest.
Definition s_ca5 := Eval vm_compute in w_go (fst s_ca4) (x_inputs (x_now + sec 40) 2) (fst w_mail).
Definition s_ca6 := Eval vm_compute in w_go (fst s_ca5) (x_inputs (x_now + sec 50) 3) (fst w_code).
Lemma s_step4 : step toy w_cfg mem_ops (fst w_ca3) (EvInterest (x_inputs (x_now + sec 30) 1) x_new_interest) = Some s_ca4.
Proof. vm_compute. reflexivity. Qed.
Lemma s_step5 : step toy w_cfg mem_ops (fst s_ca4) (EvInterest (x_inputs (x_now + sec 40) 2) (fst w_mail)) = Some s_ca5.
Proof. vm_compute. reflexivity. Qed.
Lemma s_step6 : step toy w_cfg mem_ops (fst s_ca5) (EvInterest (x_inputs (x_now + sec 50) 3) (fst w_code)) = Some s_ca6.
Proof. vm_compute. reflexivity. Qed.
Definition s_e4 := HStep (fst w_ca3) (EvInterest (x_inputs (x_now + sec 30) 1) x_new_interest) (snd s_ca4) (fst s_ca4).
Definition s_e5 := HStep (fst s_ca4) (EvInterest (x_inputs (x_now + sec 40) 2) (fst w_mail)) (snd s_ca5) (fst s_ca5).
Definition s_e6 := HStep (fst s_ca5) (EvInterest (x_inputs (x_now + sec 50) 3) (fst w_code)) (snd s_ca6) (fst s_ca6).
Lemma s_h4 : ca_history toy w_cfg mem_ops [w_e1; w_e2; w_e3; s_e4] (fst s_ca4).
Proof. exact (history_more _ _ _ _ [_; _; _] _ _ _ _ w_h3 (some_pair _ _ _ _ s_step4)). Qed.
Lemma s_h5 : ca_history toy w_cfg mem_ops [w_e1; w_e2; w_e3; s_e4; s_e5] (fst s_ca5).
Proof. exact (history_more _ _ _ _ [_; _; _; _] _ _ _ _ s_h4 (some_pair _ _ _ _ s_step5)). Qed.
Lemma s_h6 : ca_history toy w_cfg mem_ops [w_e1; w_e2; w_e3; s_e4; s_e5; s_e6] (fst s_ca6).
Proof. exact (history_more _ _ _ _ [_; _; _; _; _] _ _ _ _ s_h5 (some_pair _ _ _ _ s_step6)). Qed.

(** ** A wrong code for the email challenge, under the name of the pin challenge *)
Definition t_chal := Eval vm_compute in z_chal (snd w_mail) (n_params (bs "000000")).
Definition t_ca3 := Eval vm_compute in w_go (fst w_ca2) (x_inputs (x_now + sec 20) 3) (fst t_chal).
Lemma t_step3 : step toy w_cfg mem_ops (fst w_ca2) (EvInterest (x_inputs (x_now + sec 20) 3) (fst t_chal)) = Some t_ca3.
Proof. vm_compute. reflexivity. Qed.
Definition t_e3 := HStep (fst w_ca2) (EvInterest (x_inputs (x_now + sec 20) 3) (fst t_chal)) (snd t_ca3) (fst t_ca3).
Lemma t_h3 : ca_history toy w_cfg mem_ops ([w_e1] ++ [w_e2] ++ [t_e3]) (fst t_ca3).
Proof. exact (history_more _ _ _ _ [_; _] _ _ _ _ w_h2 (some_pair _ _ _ _ t_step3)). Qed.
Ltac reply_tac := do 5 eexists; repeat (split; [vm_compute; reflexivity|]); vm_compute; reflexivity.
Ltac says_tac := eexists; split; vm_compute; reflexivity.
Lemma longer_than_issued : exists g tr start st s id key c0 i0 params0 r cs em d l, ca_history toy g mem_ops (tr ++ [start] ++ [st]) s /\
  asks toy g id key c0 start i0 params0 (bs "email") /\ starts toy (cf_chal g) i0 params0 r (bs "email") cs em /\ cs_rtime cs = 300%Z /\
  In (EPut d) (h_effs st) /\ reply_opens toy key id d l /\ says l T_RemainingTime 3590.
Proof.
  exists w_cfg, [w_e1], w_e2, t_e3, (fst t_ca3), z_id, z_key, x_creq, (x_inputs (x_now + sec 10) 2). eexists. exists p_r1. eexists _, _. exists (the_put (snd t_ca3)). eexists.
  split; [exact t_h3|]. split; [exact d_start|]. split; [eapply start_email; vm_compute; reflexivity|]. split; [reflexivity|].
  split; [right; left; reflexivity|]. split; [reply_tac|says_tac].
Qed.

(** ** Facts about the samples *)
Ltac no_add_tac := repeat (constructor; [intros (r' & IN & _); vm_compute in IN; repeat (destruct IN as [IN|IN]; [discriminate IN|]); exact IN|]); constructor.
Ltac compares_tac := split; [vm_compute; discriminate|]; eexists; do 5 eexists; split; [vm_compute; reflexivity|]; split; [vm_compute; reflexivity|]; split; [asks_tac|];
  do 2 eexists; split; [constructor|]; split; [first [left; vm_compute; reflexivity|right; vm_compute; reflexivity]|]; split; [vm_compute; reflexivity|]; split; [vm_compute; reflexivity|vm_compute; reflexivity].
Lemma n_none : ~ (answered n_e2 /\ exists given, compares toy w_cfg mem_ops z_id n_e2 given).
Proof. intros (_ & given & i & params & ty & r & cs & P & C & _). vm_compute in P. injection P as <-. vm_compute in C. discriminate C. Qed.
Lemma n_tally : tally (fun st => answered st /\ exists given, compares toy w_cfg mem_ops z_id st given) [n_e2; n_e3; n_e4; n_e5] 3.
Proof. constructor 3; [exact n_none|]. constructor 2; [compares_tac|]. constructor 2; [compares_tac|]. constructor 2; [compares_tac|constructor]. Qed.
Lemma n_no_add : no_add z_id [n_e2; n_e3; n_e4; n_e5].
Proof. no_add_tac. Qed.
Lemma n_steps : steps toy w_cfg mem_ops (fst w_ca1) [n_e2; n_e3; n_e4; n_e5] (fst n_ca5).
Proof. repeat (econstructor; [apply some_pair; first [exact n_step2|exact n_step3|exact n_step4|exact n_step5]|]). constructor. Qed.
