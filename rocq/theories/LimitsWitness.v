(** Concrete cases for the statements about limits. *)
From Verif Require Import PolicyFacts.
From Verif Require Export LimitsFacts SizeFacts TraceWitness PolicyWitness.
From Verif Require WireWitness.
Local Open Scope N_scope.

(** The start of the email challenge, repeated with a fresh initialization vector. *)
Definition l_mail_params : list tlv := [Tlv T_SelectedChallenge (bs "email"); Tlv T_ParameterKey (bs "email"); Tlv T_ParameterValue w_addr].
Definition l_mail2 := Eval vm_compute in z_chal (snd w_mail) l_mail_params.
Definition l_memreq (s : ca_state mem) : request := match pending mem_ops s z_id with Some r => r | None => Request [] [] 0 0 x_ca_cert [] [] [] [] None end.
Definition l_r2 : request := Eval vm_compute in l_memreq (fst w_ca2).
Definition l_cs2 : cstate := Eval vm_compute in the_cs l_r2.
Lemma l_email : ca_at toy w_cfg mem_ops (fst w_ca2) /\ names_request w_cfg z_id (fst l_mail2) /\ pending mem_ops (fst w_ca2) z_id = Some l_r2 /\ rq_cs l_r2 = Some l_cs2 /\ wants_code l_cs2 /\
  signed_by toy (fst l_mail2) (public_key (rq_cert l_r2)) /\ acceptable toy l_r2 (fst l_mail2) l_mail_params /\ starts_over l_mail_params (bs "email") /\
  get T_ParameterValue l_mail_params = Some (Tlv T_ParameterValue w_addr) /\ (in_t1 (x_inputs (x_now + sec 20) 3) - cs_time l_cs2 < sec 300)%Z /\
  sec_get (bs "code") (cs_secrets l_cs2) = Some x_code /\ w_addr <> x_code.
Proof.
  split; [exact w_at2|]. split; [names_tac|]. split; [vm_compute; reflexivity|]. split; [reflexivity|]. split; [left; reflexivity|]. split; [signed_tac|].
  split; [acceptable_tac|]. split; [split; [selects_tac|discriminate]|]. split; [reflexivity|]. split; [vm_compute; reflexivity|]. split; [reflexivity|vm_compute; discriminate].
Qed.

(** The start of the pin challenge, repeated. *)
Definition l_pin_params : list tlv := [Tlv T_SelectedChallenge (bs "pin")].
Definition l_pin2 := Eval vm_compute in z_chal (snd n_chal1) l_pin_params.
Definition l_r3 : request := Eval vm_compute in l_memreq (fst n_ca2).
Definition l_cs3 : cstate := Eval vm_compute in the_cs l_r3.
Lemma l_at3 : ca_at toy w_cfg mem_ops (fst n_ca2).
Proof. eapply ca_at_step; [exact w_at1|]. exact (some_pair _ _ _ _ n_step2). Qed.
Lemma l_pin : ca_at toy w_cfg mem_ops (fst n_ca2) /\ names_request w_cfg z_id (fst l_pin2) /\ pending mem_ops (fst n_ca2) z_id = Some l_r3 /\ rq_cs l_r3 = Some l_cs3 /\ wants_code l_cs3 /\
  signed_by toy (fst l_pin2) (public_key (rq_cert l_r3)) /\ acceptable toy l_r3 (fst l_pin2) l_pin_params /\ starts_over l_pin_params (bs "pin").
Proof.
  split; [exact l_at3|]. split; [names_tac|]. split; [vm_compute; reflexivity|]. split; [reflexivity|]. split; [left; reflexivity|]. split; [signed_tac|].
  split; [acceptable_tac|]. split; [selects_tac|reflexivity].
Qed.

(** A code presented after 4000 s. *)
Definition l_code := n_params x_code.
Definition l_late := Eval vm_compute in z_chal (snd n_chal1) l_code.
Lemma l_expired : ca_at toy w_cfg mem_ops (fst n_ca2) /\ names_request w_cfg z_id (fst l_late) /\ pending mem_ops (fst n_ca2) z_id = Some l_r3 /\ rq_cs l_r3 = Some l_cs3 /\
  signed_by toy (fst l_late) (public_key (rq_cert l_r3)) /\ acceptable toy l_r3 (fst l_late) l_code /\ selects l_code (bs "pin") /\ code_life (bs "pin") 3600 /\ wants_code l_cs3 /\
  get T_ParameterValue l_code = Some (Tlv T_ParameterValue x_code) /\ (sec 3600 <= in_t1 (x_inputs (x_now + sec 4000) 3) - cs_time l_cs3)%Z.
Proof.
  split; [exact l_at3|]. split; [names_tac|]. split; [vm_compute; reflexivity|]. split; [reflexivity|]. split; [signed_tac|]. split; [acceptable_tac|]. split; [selects_tac|].
  split; [constructor|]. split; [left; reflexivity|]. split; [reflexivity|vm_compute; discriminate].
Qed.

(** A quiet CA: years later, an Interest for something else. *)
Definition l_years : Z := (x_now + sec 1000000000)%Z.
Definition l_ca3 := Eval vm_compute in match step toy x_cfg (db_ops toy) (fst x_ca2) (EvInterest (x_inputs l_years 9) z_probe) with Some r => r | None => x_ca2 end.
Lemma l_quiet : ca_at toy x_cfg (db_ops toy) (fst x_ca2) /\ pending (db_ops toy) (fst x_ca2) z_id = Some x_r2 /\ quiet toy x_cfg (db_ops toy) z_id (public_key (rq_cert x_r2)) (fst x_ca2) (fst l_ca3).
Proof.
  split; [exact x_at2|]. split; [vm_compute; reflexivity|].
  exists [HStep (fst x_ca2) (EvInterest (x_inputs l_years 9) z_probe) (snd l_ca3) (fst l_ca3)]. split.
  - econstructor; [|constructor]. vm_compute. reflexivity.
  - constructor; [|constructor]. split; [|intros []]. intros i x [Q|(n & key & Q)]; [|discriminate Q]. cbn [h_ev] in Q. injection Q as _ <-. intros (ty & rest & Q & _). vm_compute in Q. discriminate Q.
Qed.

(** A CA whose certificate expires between the NEW Interest and the challenge. *)
Definition k_cert : cert := Eval vm_compute in x_self x_ca_sk x_keyloc 0 5005.
Definition k_cfg : ca_cfg := CaCfg (cf w_cfg) (cf_chal w_cfg) k_cert x_ca_sk x_keyloc.
Definition k_go (s : ca_state mem) (i : inputs) (x : interest) : ca_state mem * list eff := match step toy k_cfg mem_ops s (EvInterest i x) with Some r => r | None => (s, []) end.
Definition k_ca1 := Eval vm_compute in k_go w_ca0 (x_inputs x_now 1) x_new_interest.
Definition k_ca2 := Eval vm_compute in k_go (fst k_ca1) (x_inputs (x_now + sec 10) 2) (fst w_mail).
Definition k_ca3 := Eval vm_compute in k_go (fst k_ca2) (x_inputs (x_now + sec 20) 3) (fst w_code).
Definition k_e1 := HStep w_ca0 (EvInterest (x_inputs x_now 1) x_new_interest) (snd k_ca1) (fst k_ca1).
Definition k_e2 := HStep (fst k_ca1) (EvInterest (x_inputs (x_now + sec 10) 2) (fst w_mail)) (snd k_ca2) (fst k_ca2).
Definition k_e3 := HStep (fst k_ca2) (EvInterest (x_inputs (x_now + sec 20) 3) (fst w_code)) (snd k_ca3) (fst k_ca3).
Lemma k_h3 : ca_history toy k_cfg mem_ops ([k_e1; k_e2] ++ [k_e3]) (fst k_ca3).
Proof.
  constructor; [meets|meets|constructor|]. exists (bs "id key"). econstructor; [vm_compute; reflexivity|]. econstructor; [vm_compute; reflexivity|]. econstructor; [vm_compute; reflexivity|constructor].
Qed.
Lemma k_outlives : exists g tr st s c i x nb na nb' na', public_key (cf_cert g) = o_pub toy (cf_sk g) /\ ca_history toy g mem_ops (tr ++ [st]) s /\ handles st i x /\ In (EIssue c) (h_effs st) /\
  c_validity (cf_cert g) = Some (nb, na) /\ (na < in_t1 i)%Z /\ c_validity c = Some (nb', na') /\ (na < na')%Z.
Proof.
  exists k_cfg, [k_e1; k_e2], k_e3, (fst k_ca3), (the_issued (snd k_ca3)), (x_inputs (x_now + sec 20) 3), (fst w_code). do 4 eexists. split; [vm_compute; reflexivity|]. split; [exact k_h3|].
  split; [left; reflexivity|]. split; [left; reflexivity|]. split; [reflexivity|]. split; [vm_compute; reflexivity|]. split; vm_compute; reflexivity.
Qed.

(** Replies of moderate size. *)
Lemma l_asked : forall c, asked_for (db_ops toy) (fst x_ca2) c -> c = rq_cert x_r2.
Proof.
  intros c (id & r & P & ->). unfold pending in P. cbn [db_ops s_get] in P. unfold db_get in P.
  destruct (db_row (ca_store (fst x_ca2)) id) as [w|] eqn:W; [|discriminate]. unfold db_row in W. apply find_some in W as [W _].
  destruct W as [<-|[]]. vm_compute in P. injection P as <-. reflexivity.
Qed.
Lemma l_room : room_needed toy x_cfg (asked_for (db_ops toy) (fst x_ca2)) 200 /\ ~ to_verb (p_prefix (cfp x_cfg)) (bs "PROBE") (the_interest x_chal2) /\ h_pre x_e3 = fst x_ca2.
Proof.
  split; [|split; [intros (rest & Q); vm_compute in Q; discriminate Q|reflexivity]].
  split; [intros sk; change (blen (o_ecdh_pub toy sk)) with 9; vm_compute; discriminate|]. split; [vm_compute; discriminate|].
  intros c A. apply l_asked in A. subst c. vm_compute. discriminate.
Qed.

(** A PROBE with two redirections. *)
Lemma l_probe : addressed y_cfg VProbe (i_name (y_probe y_params)) /\ probe_room toy y_cfg y_inputs (y_probe y_params) 1000 /\ (exists d, fst (on_interest toy y_cfg mem_ops (fst w_ca1) y_inputs (y_probe y_params)) = [EPut d]).
Proof.
  split; [eexists; vm_compute; reflexivity|]. split; [|eexists; vm_compute; reflexivity].
  intros params rs ns PD T O. assert (P : probe_params_decode (params_of (y_probe y_params)) = Ok y_params) by (vm_compute; reflexivity). rewrite P in PD. injection PD as <-.
  apply targets_iff in T. apply suffixes_offers in O. vm_compute in T. vm_compute in O. injection T as <-. injection O as <-. vm_compute. discriminate.
Qed.
