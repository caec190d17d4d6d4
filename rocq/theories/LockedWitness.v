(** Concrete cases for C119. *)
From Verif Require Export LockedFacts TraceWitness.
Local Open Scope N_scope.

(** ** The right code, sent twice while the database cannot be written *)
Definition lk_x : interest := the_interest x_chal3.
Definition lk_i1 : inputs := x_inputs (x_now + sec 30) 4.
Definition lk_i2 : inputs := x_inputs (x_now + sec 40) 5.
Definition lk_1 : option (ca_state db * list eff) := Eval vm_compute in step toy x_cfg (db_ops toy) (fst x_ca3) (EvInterest lk_i1 lk_x).
Definition lk_2 : option (ca_state db * list eff) := Eval vm_compute in step toy x_cfg (db_ops toy) (fst x_ca3) (EvInterest lk_i2 lk_x).
Definition lk_es (o : option (ca_state db * list eff)) : list eff := match o with Some (_, es) => es | None => [] end.
Lemma lk_eq1 : step toy x_cfg (db_ops toy) (fst x_ca3) (EvInterest lk_i1 lk_x) = lk_1.
Proof. vm_compute. reflexivity. Qed.
Lemma lk_eq2 : step toy x_cfg (db_ops toy) (fst x_ca3) (EvInterest lk_i2 lk_x) = lk_2.
Proof. vm_compute. reflexivity. Qed.
Lemma lk_issues : ca_at toy x_cfg (db_ops toy) (fst x_ca3) /\
  Forall (fun i => exists s1 es c, step toy x_cfg (db_ops toy) (fst x_ca3) (EvInterest i lk_x) = Some (s1, es) /\ In (EIssue c) es /\ puts es <> []) [lk_i1; lk_i2].
Proof.
  split; [exact (history_at _ _ _ _ _ _ x_h3)|]. repeat constructor; [rewrite lk_eq1|rewrite lk_eq2]; do 3 eexists; (split; [reflexivity|]); (split; [left; reflexivity|discriminate]).
Qed.
Definition lk_st (i : inputs) (o : option (ca_state db * list eff)) : wrec db := WRec (fst x_ca3) (WLocked true i lk_x) (lk_es o) (fst x_ca3).
Definition lk_put (o : option (ca_state db * list eff)) : data := the_put (lk_es o).
Lemma lk_history : locked_history toy x_cfg (map fine [x_e1; x_e2; x_e3] ++ [lk_st lk_i1 lk_1; lk_st lk_i2 lk_2]) (fst x_ca3).
Proof.
  eapply history_locked; [apply fine_history, x_h3|].
  econstructor; [refine (delete_locked toy x_cfg db (db_ops toy) _ _ _ _ _ z_id lk_eq1 _); right; left; reflexivity|].
  econstructor; [refine (delete_locked toy x_cfg db (db_ops toy) _ _ _ _ _ z_id lk_eq2 _); right; left; reflexivity|constructor].
Qed.
(** The two replies are encrypted with one key and one initialization vector, and say different things. *)
Definition lk_iv : bytes := Eval vm_compute in match wire_iv (d_content (lk_put lk_1)) with Some iv => iv | None => [] end.
Definition lk_plain (o : option (ca_state db * list eff)) : list tlv :=
  match parse (d_content (lk_put o)) with
  | Some els =>
      match get T_InitializationVector els, get T_AuthenticationTag els, get T_EncryptedPayload els with
      | Some iv, Some tag, Some ct => match o_aes_dec toy (rq_key x_r3) (t_val iv) z_id (t_val ct) (t_val tag) with Some pt => match parse pt with Some l => l | None => [] end | None => [] end
      | _, _, _ => []
      end
  | None => []
  end.
Lemma iv_twice : exists g tr st1 st2 s id key d1 d2 iv l1 l2, locked_history toy g (tr ++ [st1; st2]) s /\ In (EPut d1) (w_effs st1) /\ In (EPut d2) (w_effs st2) /\
  wire_iv (d_content d1) = Some iv /\ wire_iv (d_content d2) = Some iv /\ reply_opens toy key id d1 l1 /\ reply_opens toy key id d2 l2 /\ l1 <> l2.
Proof.
  exists x_cfg, (map fine [x_e1; x_e2; x_e3]), (lk_st lk_i1 lk_1), (lk_st lk_i2 lk_2), (fst x_ca3), z_id, (rq_key x_r3), (lk_put lk_1), (lk_put lk_2), lk_iv, (lk_plain lk_1), (lk_plain lk_2).
  split; [exact lk_history|]. split; [right; right; left; reflexivity|]. split; [right; right; left; reflexivity|]. split; [vm_compute; reflexivity|]. split; [vm_compute; reflexivity|].
  split; [do 5 eexists; repeat (split; [vm_compute; reflexivity|]); vm_compute; reflexivity|]. split; [do 5 eexists; repeat (split; [vm_compute; reflexivity|]); vm_compute; reflexivity|]. vm_compute. discriminate.
Qed.
Lemma lk_once : exists st1 st2 i1 i2 x c1 c2, locked_history toy x_cfg (map fine [x_e1; x_e2; x_e3] ++ st1 :: [] ++ st2 :: []) (fst x_ca3) /\
  w_handles st1 i1 x /\ names_request x_cfg z_id x /\ In (EIssue c1) (w_effs st1) /\ puts (w_effs st1) <> [] /\ w_handles st2 i2 x /\ In (EIssue c2) (w_effs st2) /\ c1 <> c2.
Proof.
  exists (lk_st lk_i1 lk_1), (lk_st lk_i2 lk_2), lk_i1, lk_i2, lk_x, (the_issued (lk_es lk_1)), (the_issued (lk_es lk_2)). split; [exact lk_history|]. split; [left; reflexivity|]. split; [exact x_names3|].
  split; [left; reflexivity|]. split; [discriminate|]. split; [left; reflexivity|]. split; [left; reflexivity|]. vm_compute. discriminate.
Qed.

(** ** Two wrong codes are counted; after that the database cannot be written *)
Definition lk_wrong : interest := Eval vm_compute in the_interest (gen_challenge toy x_req4 (x_rin x_now 7) [(K_CODE, bs "000009")]).
Definition lk_ca4 : ca_state db * list eff := Eval vm_compute in x_go (fst x_ca3) lk_i1 lk_wrong.
Lemma lk_step4 : step toy x_cfg (db_ops toy) (fst x_ca3) (EvInterest lk_i1 lk_wrong) = Some lk_ca4.
Proof. vm_compute. reflexivity. Qed.
Definition lk_e4 := HStep (fst x_ca3) (EvInterest lk_i1 lk_wrong) (snd lk_ca4) (fst lk_ca4).
Lemma lk_h4 : ca_history toy x_cfg (db_ops toy) [x_e1; x_e2; x_e3; lk_e4] (fst lk_ca4).
Proof. exact (history_more _ _ _ _ [_; _; _] _ _ _ _ x_h3 (some_pair _ _ _ _ lk_step4)). Qed.
Definition lk_req5 : rstate := Eval vm_compute in ok_state (on_challenge_response toy (snd (gen_challenge toy x_req4 (x_rin x_now 7) [(K_CODE, bs "000009")])) (x_rin x_now 8) (the_put (snd lk_ca4))) x_req1.
Definition lk_guess (code : bytes) : interest := the_interest (gen_challenge toy lk_req5 (x_rin x_now 9) [(K_CODE, code)]).
Definition lk_g1 : interest := Eval vm_compute in lk_guess (bs "000010").
Definition lk_g2 : interest := Eval vm_compute in lk_guess (bs "000011").
Definition lk_r : request := Eval vm_compute in x_dbreq (fst lk_ca4).
Definition lk_cs : cstate := Eval vm_compute in the_cs lk_r.
Definition lk_p (code : bytes) : list tlv := [Tlv T_SelectedChallenge (bs "pin"); Tlv T_ParameterKey (bs "code"); Tlv T_ParameterValue code].
Lemma lk_accept1 : acceptable toy lk_r lk_g1 (lk_p (bs "000010")).
Proof. acceptable_tac. Qed.
Lemma lk_accept2 : acceptable toy lk_r lk_g2 (lk_p (bs "000011")).
Proof. acceptable_tac. Qed.
Lemma lk_guesses : ca_at toy x_cfg (db_ops toy) (fst lk_ca4) /\ pending (db_ops toy) (fst lk_ca4) z_id = Some lk_r /\ rq_cs lk_r = Some lk_cs /\ sec_get (bs "code") (cs_secrets lk_cs) = Some x_code /\ cs_tries lk_cs = 1 /\
  Forall (fun ix => names_request x_cfg z_id (snd ix) /\ signed_by toy (snd ix) (public_key (rq_cert lk_r)) /\
    exists params ty given, acceptable toy lk_r (snd ix) params /\ selects params ty /\ guesses (fst ix) params lk_cs ty given /\ given <> x_code) [(lk_i2, lk_g1); (lk_i2, lk_g2)].
Proof.
  split; [exact (history_at _ _ _ _ _ _ lk_h4)|]. split; [vm_compute; reflexivity|]. split; [reflexivity|]. split; [vm_compute; reflexivity|]. split; [vm_compute; reflexivity|].
  constructor; [|constructor; [|constructor]]; cbn [fst snd].
  - split; [names_tac|]. split; [signed_tac|]. exists (lk_p (bs "000010")), (bs "pin"), (bs "000010"). split; [exact lk_accept1|]. split; [selects_tac|]. split; [|vm_compute; discriminate].
    do 2 eexists; split; [constructor|]; split; [right; reflexivity|]; split; [reflexivity|]; split; [reflexivity|vm_compute; reflexivity].
  - split; [names_tac|]. split; [signed_tac|]. exists (lk_p (bs "000011")), (bs "pin"), (bs "000011"). split; [exact lk_accept2|]. split; [selects_tac|]. split; [|vm_compute; discriminate].
    do 2 eexists; split; [constructor|]; split; [right; reflexivity|]; split; [reflexivity|]; split; [reflexivity|vm_compute; reflexivity].
Qed.
(** A certificate issued while the database is locked. *)
Lemma lk_issue : exists tr st s c, locked_history toy x_cfg (tr ++ [st]) s /\ is_locked (w_ev st) /\ In (EIssue c) (w_effs st).
Proof.
  exists (map fine [x_e1; x_e2; x_e3] ++ [lk_st lk_i1 lk_1]), (lk_st lk_i2 lk_2), (fst x_ca3), (the_issued (lk_es lk_2)). rewrite <- app_assoc. split; [exact lk_history|]. split; [exact I|left; reflexivity].
Qed.
(** An update that fails. *)
Lemma lk_update : exists r b, on_interest toy x_cfg (db_ops toy) (fst x_ca2) (x_inputs (x_now + sec 20) 3) (the_interest x_chal2) = ([EUpdate r] ++ b, Ok tt) /\
  on_interest_locked toy x_cfg (db_ops toy) true (fst x_ca2) (x_inputs (x_now + sec 20) 3) (the_interest x_chal2) = ([], Exn).
Proof.
  assert (Q : exists r b, on_interest toy x_cfg (db_ops toy) (fst x_ca2) (x_inputs (x_now + sec 20) 3) (the_interest x_chal2) = (EUpdate r :: b, Ok tt)) by (vm_compute; do 2 eexists; reflexivity).
  destruct Q as (r & b & Q). exists r, b. split; [exact Q|]. vm_compute. reflexivity.
Qed.
(** The first certificate with a database that can be written: nothing more for this request. *)
Lemma lk_fine : exists st s c, locked_history toy x_cfg (map fine [x_e1; x_e2; x_e3] ++ [st]) s /\ ~ is_locked (w_ev st) /\ In (EIssue c) (w_effs st) /\ puts (w_effs st) <> [].
Proof.
  exists (fine x_e4), (fst x_ca4), x_cert. split; [exact (fine_history _ _ _ _ x_h4)|]. split; [intros []|]. split; [left; reflexivity|vm_compute; discriminate].
Qed.
Lemma lk_steps : exists s1 es, wstep toy x_cfg (db_ops toy) (fst x_ca3) (WLocked true lk_i1 lk_x) = Some (s1, es) /\ puts es <> [].
Proof.
  exists (fst x_ca3), (lk_es lk_1). split; [|discriminate]. refine (delete_locked toy x_cfg db (db_ops toy) _ _ _ _ _ z_id lk_eq1 _). right; left; reflexivity.
Qed.
(** While the database cannot be read. *)
Lemma lk_unread : exists d, on_interest_locked toy x_cfg (db_ops toy) false (fst x_ca3) lk_i1 lk_x = ([EPut d], Ok tt) /\ fst (on_interest toy x_cfg (db_ops toy) (fst x_ca3) lk_i1 lk_x) = lk_es lk_1.
Proof.
  assert (Q : exists d, on_interest_locked toy x_cfg (db_ops toy) false (fst x_ca3) lk_i1 lk_x = ([EPut d], Ok tt)) by (vm_compute; eexists; reflexivity).
  destruct Q as (d & Q). exists d. split; [exact Q|]. pose proof lk_eq1 as W. cbn [step] in W. destruct (on_interest toy x_cfg (db_ops toy) (fst x_ca3) lk_i1 lk_x) as [es o]. unfold lk_1 in *. destruct o; try discriminate W; injection W as _ W; exact W.
Qed.
