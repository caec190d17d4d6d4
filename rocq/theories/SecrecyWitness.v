(** Two runs that differ in the secret code drawn. *)
From Verif Require Export TraceWitness SecrecyFacts.
Local Open Scope N_scope.

Definition s_i2 : inputs := with_words [314159] (x_inputs (x_now + sec 10) 2).
Definition s_ca2 := Eval vm_compute in w_go (fst w_ca1) s_i2 (fst n_chal1).
Definition s_ca3 := Eval vm_compute in w_go (fst s_ca2) (x_inputs (x_now + sec 3500) 3) (fst n_chal2).
Lemma s_step2 : step toy w_cfg mem_ops (fst w_ca1) (EvInterest s_i2 (fst n_chal1)) = Some s_ca2.
Proof. vm_compute. reflexivity. Qed.
Lemma s_step3 : step toy w_cfg mem_ops (fst s_ca2) (EvInterest (x_inputs (x_now + sec 3500) 3) (fst n_chal2)) = Some s_ca3.
Proof. vm_compute. reflexivity. Qed.
Definition s_e2 := HStep (fst w_ca1) (EvInterest s_i2 (fst n_chal1)) (snd s_ca2) (fst s_ca2).
Definition s_e3 := HStep (fst s_ca2) (EvInterest (x_inputs (x_now + sec 3500) 3) (fst n_chal2)) (snd s_ca3) (fst s_ca3).
Lemma s_steps : steps toy w_cfg mem_ops (fst w_ca1) [s_e2; s_e3] (fst s_ca3).
Proof. repeat (econstructor; [apply some_pair; first [exact s_step2|exact s_step3]|]). constructor. Qed.
Lemma s_steps0 : steps toy w_cfg mem_ops (fst w_ca1) [n_e2; n_e3] (fst n_ca3).
Proof. repeat (econstructor; [apply some_pair; first [exact n_step2|exact n_step3]|]). constructor. Qed.
Lemma s_same : Forall2 same_but_codes (map h_ev [n_e2; n_e3]) (map h_ev [s_e2; s_e3]).
Proof.
  cbn [map h_ev n_e2 n_e3 s_e2 s_e3]. constructor; [|constructor; [|constructor]]; constructor.
  - split; [exists [314159]; reflexivity|]. split; eexists; vm_compute; reflexivity.
  - split; [eexists; symmetry; reflexivity|]. split; eexists; vm_compute; reflexivity.
Qed.
Lemma s_drawn : gen_code (in_words (x_inputs (x_now + sec 10) 2)) = Ok x_code /\ gen_code (in_words s_i2) = Ok (bs "000073").
Proof. split; vm_compute; reflexivity. Qed.
(** None of the four Interests presents the code: the wrong code is "000000" in both runs. *)
Lemma s_misses : forall st, In st ([n_e2; n_e3] ++ [s_e2; s_e3]) -> ~ hits toy w_cfg mem_ops st.
Proof.
  assert (W : forall st i0 x0 r0 params0, h_ev st = EvInterest i0 x0 -> (forall id, names_request w_cfg id x0 -> id = z_id) -> pending mem_ops (h_pre st) z_id = Some r0 ->
    (forall params, opens toy (rq_key r0) z_id x0 params -> params = params0) ->
    (rq_cs r0 = None \/ exists cs t code, rq_cs r0 = Some cs /\ sec_get (bs "code") (cs_secrets cs) = Some code /\ get T_ParameterValue params0 = Some t /\ t_val t <> code) -> ~ hits toy w_cfg mem_ops st).
  { intros st i0 x0 r0 params0 EV NI P OP Q (id & r & cs & code & P1 & C1 & S1 & (i & params & ty & r' & cs' & P2 & C2 & (x & H & N & _ & O & _) & (life & t & _ & _ & G & GV & _))).
    assert (x = x0) by (destruct H as [H|(n & key & H)]; congruence). subst x. pose proof (NI id N) as ->.
    rewrite P in P1, P2. injection P1 as <-. injection P2 as <-. rewrite (OP params O) in G.
    destruct Q as [Q|(cs0 & t0 & code0 & Q1 & Q2 & Q3 & Q4)]; congruence. }
  assert (NM : forall x0 rest, i_name x0 = p_prefix (cfp w_cfg) ++ [gc (bs "CA"); gc (bs "CHALLENGE"); gc z_id] ++ rest -> forall id, names_request w_cfg id x0 -> id = z_id).
  { intros x0 rest Q id (ty & rest' & Q' & _). rewrite Q in Q'. apply app_inv_head in Q'. injection Q' as _ Q' _. symmetry. exact Q'. }
  assert (OP : forall key x0 els iv tag ct pt params0, parse (params_of x0) = Some els -> get T_InitializationVector els = Some iv -> get T_AuthenticationTag els = Some tag -> get T_EncryptedPayload els = Some ct ->
    o_aes_dec toy key (t_val iv) z_id (t_val ct) (t_val tag) = Some pt -> parse pt = Some params0 -> forall params, opens toy key z_id x0 params -> params = params0).
  { intros key x0 els iv tag ct pt params0 A1 A2 A3 A4 A5 A6 params (els' & iv' & tag' & ct' & pt' & B1 & B2 & B3 & B4 & B5 & B6). congruence. }
  intros st [<-|[<-|[<-|[<-|[]]]]].
  - eapply W; [reflexivity|eapply NM; vm_compute; reflexivity|vm_compute; reflexivity|eapply OP; vm_compute; reflexivity|]. left. reflexivity.
  - eapply W; [reflexivity|eapply NM; vm_compute; reflexivity|vm_compute; reflexivity|eapply OP; vm_compute; reflexivity|]. right. do 3 eexists. split; [reflexivity|]. split; [vm_compute; reflexivity|]. split; [vm_compute; reflexivity|]. vm_compute. discriminate.
  - eapply W; [reflexivity|eapply NM; vm_compute; reflexivity|vm_compute; reflexivity|eapply OP; vm_compute; reflexivity|]. left. reflexivity.
  - eapply W; [reflexivity|eapply NM; vm_compute; reflexivity|vm_compute; reflexivity|eapply OP; vm_compute; reflexivity|]. right. do 3 eexists. split; [reflexivity|]. split; [vm_compute; reflexivity|]. split; [vm_compute; reflexivity|]. vm_compute. discriminate.
Qed.
(** With the code of one run presented in both, the replies differ. *)
Definition s_ca4 := Eval vm_compute in w_go (fst s_ca3) (x_inputs (x_now + sec 7000) 4) (fst n_right).
Lemma s_step4 : step toy w_cfg mem_ops (fst s_ca3) (EvInterest (x_inputs (x_now + sec 7000) 4) (fst n_right)) = Some s_ca4.
Proof. vm_compute. reflexivity. Qed.
Lemma s_tells : puts (snd n_ca6) <> puts (snd s_ca4).
Proof. vm_compute. discriminate. Qed.
