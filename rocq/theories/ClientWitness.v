(** Concrete runs of the command line client against the example CA, and counterexamples. *)
From Verif Require Export ClientFacts RequesterWitness ConfigWitness.
Local Open Scope N_scope.

(** ** Playing a run *)
Definition w_matches (i : interest) (w : waiting) (ev : clevent) : bool :=
  match ev, w with
  | CData d, WMeta _ => is_prefix (i_name i) (d_name d)
  | CData d, (WInfo _ | WProbe _ | WNew | WChallenge) => name_eqb (d_name d) (i_name i)
  | CCert d, WCert => name_eqb (c_name d) (i_name i) || name_eqb (full_name toy d) (i_name i)
  | (CNack | CTimeout | CSignal), _ => true
  | _, _ => false
  end.
Definition w_play1 (cn : client * cnext) (e : cinputs * clevent) : client * cnext :=
  match snd cn with
  | NWait i w => if w_matches i w (snd e) then client_step toy (fst cn) w (fst e) (snd e) else (fst cn, NHang)
  | _ => (fst cn, NHang)
  end.
Definition w_hist (h : history) (l : list (cinputs * clevent)) : history := rev (map (fun e => (fst e, Some (snd e))) l) ++ h.
Lemma w_run1 : forall file pb h cn e cn', client_run toy file pb h (fst cn) (snd cn) -> w_play1 cn e = cn' -> snd cn' <> NHang ->
  client_run toy file pb ((fst e, Some (snd e)) :: h) (fst cn') (snd cn').
Proof.
  intros file pb h [c nx] [ci ev] cn' H. cbn [fst snd]. unfold w_play1. cbn [fst snd]. destruct nx as [i w| | | | | |]; try (intros <- N; destruct (N eq_refl)).
  destruct (w_matches i w ev) eqn:M; intros <- N; [|destruct (N eq_refl)]. eapply run_event; [exact H| |cbn [fst snd]; destruct (client_step toy c w ci ev); reflexivity].
  destruct ev as [d|d| | |], w; cbn in M |- *; try discriminate; try exact I; try exact M; try (apply name_eqb_eq; exact M). apply Bool.orb_true_iff in M as [M|M]; [left|right]; apply name_eqb_eq; exact M.
Qed.

(** ** The run *)
Definition w_file : option ptree := Some (k_obj [(bs "ca-list", k_arr [k_plain])]).
Definition w_ci (n : N) (lines : list bytes) : cinputs :=
  CIn lines x_now (x_rin x_now n) (bs "alice ephemeral") (repeat x00 8) (gc (bs "k1"), x_sk) (gc (bs "k2"), bs "second key").
Definition w_0 : client * cnext := Eval vm_compute in client_start toy w_file [] (w_ci 0 [bs "0"]).
Definition w_meta : data :=
  Data (k_prefix ++ [gc (bs "CA"); gc (bs "INFO"); Tlv T_Keyword (bs "metadata"); version_comp 9; Tlv T_Segment (nni_enc 0)])
       (name_wire (prefix_neg 1 (d_name y_profile))) 0 None [].
Definition w_sent (cn : client * cnext) : interest := match snd cn with NWait i _ => i | _ => Interest [] None None end.
Definition w_e1 : cinputs * clevent := (w_ci 1 [], CData w_meta).
Definition w_1 : client * cnext := Eval vm_compute in w_play1 w_0 w_e1.
Definition w_e2 : cinputs * clevent := (w_ci 2 [bs "Alice@Example"; bs "alice"], CData y_profile).
Definition w_2 : client * cnext := Eval vm_compute in w_play1 w_1 w_e2.
Definition w_ca2 := Eval vm_compute in x_go x_ca0 (x_inputs x_now 1) (w_sent w_2).
Definition w_e3 : cinputs * clevent := Eval vm_compute in (w_ci 3 [bs "1"], CData (the_put (snd w_ca2))).
Definition w_3 : client * cnext := Eval vm_compute in w_play1 w_2 w_e3.
Definition w_ca3 := Eval vm_compute in x_go (fst w_ca2) (x_inputs x_now 1) (w_sent w_3).
Definition w_e4 : cinputs * clevent := Eval vm_compute in (w_ci 4 [], CData (the_put (snd w_ca3))).
Definition w_4 : client * cnext := Eval vm_compute in w_play1 w_3 w_e4.
Definition w_ca4 := Eval vm_compute in x_go (fst w_ca3) (x_inputs (x_now + sec 10) 2) (w_sent w_4).
Definition w_e5 : cinputs * clevent := Eval vm_compute in (w_ci 5 [code_of_word 12345680], CData (the_put (snd w_ca4))).
Definition w_5 : client * cnext := Eval vm_compute in w_play1 w_4 w_e5.
Definition w_ca5 := Eval vm_compute in x_go (fst w_ca4) (x_inputs (x_now + sec 20) 3) (w_sent w_5).
Definition w_e6 : cinputs * clevent := Eval vm_compute in (w_ci 6 [], CData (the_put (snd w_ca5))).
Definition w_6 : client * cnext := Eval vm_compute in w_play1 w_5 w_e6.
Definition w_cert : cert := Eval vm_compute in
  match flat_map (fun e => match e with EIssue r => [r] | _ => [] end) (snd w_ca5) with c :: _ => c | [] => x_ca_cert end.
Definition w_e7 : cinputs * clevent := (w_ci 7 [], CCert w_cert).
Definition w_7 : client * cnext := Eval vm_compute in w_play1 w_6 w_e7.

(** The runs, as histories. *)
Definition w_h0 : history := [(w_ci 0 [bs "0"], None)].
Definition w_h1 : history := (fst w_e1, Some (snd w_e1)) :: w_h0.
Definition w_h2 : history := (fst w_e2, Some (snd w_e2)) :: w_h1.
Definition w_h3 : history := (fst w_e3, Some (snd w_e3)) :: w_h2.
Definition w_h4 : history := (fst w_e4, Some (snd w_e4)) :: w_h3.
Definition w_h5 : history := (fst w_e5, Some (snd w_e5)) :: w_h4.
Definition w_h6 : history := (fst w_e6, Some (snd w_e6)) :: w_h5.
Definition w_h7 : history := (fst w_e7, Some (snd w_e7)) :: w_h6.
Ltac w_step H := eapply w_run1; [exact H|vm_compute; reflexivity|vm_compute; discriminate].
Lemma w_start : forall file pb ci cn, client_start toy file pb ci = cn -> client_run toy file pb [(ci, None)] (fst cn) (snd cn).
Proof. intros file pb ci [c nx] H. apply run_start. exact H. Qed.
Lemma w_run_0 : client_run toy w_file [] w_h0 (fst w_0) (snd w_0).
Proof. apply w_start. vm_compute. reflexivity. Qed.
Lemma w_run_1 : client_run toy w_file [] w_h1 (fst w_1) (snd w_1).
Proof. w_step w_run_0. Qed.
Lemma w_run_2 : client_run toy w_file [] w_h2 (fst w_2) (snd w_2).
Proof. w_step w_run_1. Qed.
Lemma w_run_3 : client_run toy w_file [] w_h3 (fst w_3) (snd w_3).
Proof. w_step w_run_2. Qed.
Lemma w_run_4 : client_run toy w_file [] w_h4 (fst w_4) (snd w_4).
Proof. w_step w_run_3. Qed.
Lemma w_run_5 : client_run toy w_file [] w_h5 (fst w_5) (snd w_5).
Proof. w_step w_run_4. Qed.
Lemma w_run_6 : client_run toy w_file [] w_h6 (fst w_6) (snd w_6).
Proof. w_step w_run_5. Qed.
Lemma w_run_7 : client_run toy w_file [] w_h7 (fst w_7) (snd w_7).
Proof. w_step w_run_6. Qed.

(** ** Counterexamples *)
(** The certificate on the way to the client, with its signature cut off. *)
Definition w_forged : cert := Eval vm_compute in
  Cert (c_name w_cert) (c_iskey w_cert) (c_content w_cert) (c_validity w_cert) (c_keyloc w_cert) (c_extra w_cert) [].
Definition w_e7f : cinputs * clevent := (w_ci 7 [], CCert w_forged).
Definition w_7f : client * cnext := Eval vm_compute in w_play1 w_6 w_e7f.
Lemma w_unsigned : exists h c nx k s kc, client_run toy w_file [] h c nx /\ In k (cl_installed c) /\ cl_req c = Some s /\
  p_cert (rs_profile s) = Some kc /\ ~ cert_signed_by toy k (public_key kc).
Proof.
  exists ((fst w_e7f, Some (snd w_e7f)) :: w_h6), (fst w_7f), (snd w_7f), w_forged. eexists. exists x_ca_cert. split; [w_step w_run_6|].
  split; [left; reflexivity|]. split; [reflexivity|]. split; [vm_compute; reflexivity|]. vm_compute. discriminate.
Qed.
(** A packet of the CA. *)
Definition w_data (sk : bytes) (n : name) (content : bytes) : data := Data n content 4000 None (o_sign toy sk (MData n content 4000 None)).
Definition w_reply (sk : bytes) (cn : client * cnext) (content : bytes) : data := w_data sk (i_name (w_sent cn)) content.
(** A profile without certificate, signed by the CA chosen from the list. *)
Definition w_e2n : cinputs * clevent := Eval vm_compute in (w_ci 2 [], CData (w_reply x_ca_sk w_1 [])).
Lemma w_null : exists h c, client_run toy w_file [] h c NUB.
Proof. exists ((fst w_e2n, Some (snd w_e2n)) :: w_h1), (fst w_1). change NUB with (snd (fst w_1, NUB)). change (fst w_1) with (fst (fst w_1, NUB)). w_step w_run_1. Qed.
(** The same CA, not asking for an e-mail address in PROBE. *)
Definition w_info (keys : list bytes) (c : cert) : bytes :=
  match info_encode toy (Profile x_prefix [] (bs "Example CA") keys 864000 None [CH_EMAIL] (Some c)) c with Ok b => b | _ => [] end.
Definition w_m2 : cinputs * clevent := Eval vm_compute in (w_ci 2 [bs "alice"], CData (w_reply x_ca_sk w_1 (w_info [bs "name"] x_ca_cert))).
Definition w_m2' := Eval vm_compute in w_play1 w_1 w_m2.
Definition w_mca2 := Eval vm_compute in x_go x_ca0 (x_inputs x_now 1) (w_sent w_m2').
Definition w_m3 : cinputs * clevent := Eval vm_compute in (w_ci 3 [bs "1"], CData (the_put (snd w_mca2))).
Definition w_m3' := Eval vm_compute in w_play1 w_m2' w_m3.
Definition w_mca3 := Eval vm_compute in x_go (fst w_mca2) (x_inputs x_now 1) (w_sent w_m3').
Definition w_m4 : cinputs * clevent := Eval vm_compute in (w_ci 4 [], CData (the_put (snd w_mca3))).
Definition w_m4' := Eval vm_compute in w_play1 w_m3' w_m4.
Lemma w_no_email : exists h c x ci c' db db' effs, client_run toy w_file [] h c (NWait x WNew) /\ x_go db (x_inputs x_now 1) x = (db', effs) /\
  client_step toy c WNew ci (CData (the_put effs)) = (c', NUB).
Proof.
  assert (A : client_run toy w_file [] ((fst w_m2, Some (snd w_m2)) :: w_h1) (fst w_m2') (snd w_m2')) by w_step w_run_1.
  assert (B : client_run toy w_file [] ((fst w_m3, Some (snd w_m3)) :: (fst w_m2, Some (snd w_m2)) :: w_h1) (fst w_m3') (snd w_m3')) by w_step A.
  exists ((fst w_m3, Some (snd w_m3)) :: (fst w_m2, Some (snd w_m2)) :: w_h1), (fst w_m3'), (w_sent w_m3'), (w_ci 4 []), (fst w_m4'), (fst w_mca2), (fst w_mca3), (snd w_mca3).
  split; [exact B|]. split; vm_compute; reflexivity.
Qed.
(** Too many hours. *)
Definition w_e3h : cinputs * clevent := Eval vm_compute in (w_ci 3 [bs "2562048"], snd w_e3).
Definition w_3h := Eval vm_compute in w_play1 w_2 w_e3h.
Lemma w_hours : exists h c x p ci c' db db' effs, client_run toy w_file [] h c (NWait x (WProbe p)) /\ x_go db (x_inputs x_now 1) x = (db', effs) /\
  ci_lines ci = [bs "2562048"] /\ client_step toy c (WProbe p) ci (CData (the_put effs)) = (c', NUB).
Proof.
  exists w_h2, (fst w_2), (w_sent w_2). eexists. exists (w_ci 3 [bs "2562048"]), (fst w_3h), x_ca0, (fst w_ca2), (snd w_ca2).
  split; [exact w_run_2|]. split; [vm_compute; reflexivity|]. split; [reflexivity|]. vm_compute. reflexivity.
Qed.

(** The CA redirects to a second one that asks for something else. *)
Definition w_sk2 : bytes := bs "second ca key".
Definition w_cert2 : cert := Eval vm_compute in x_self w_sk2 ([gc (bs "ndn"); gc (bs "two"); c_KEY; gc (bs "k9")]) 0 1000000000.
Definition w_r3 : cinputs * clevent := Eval vm_compute in (w_ci 3 [], CData (w_reply x_ca_sk w_2 (probe_encode [] None [full_name toy w_cert2]))).
Definition w_r3' := Eval vm_compute in w_play1 w_2 w_r3.
Definition w_r4 : cinputs * clevent := Eval vm_compute in
  (w_ci 4 [], CData (Data (i_name (w_sent w_r3') ++ [version_comp 1; Tlv T_Segment (nni_enc 0)]) (name_wire ([gc (bs "ndn"); gc (bs "two"); version_comp 3])) 0 None [])).
Definition w_r4' := Eval vm_compute in w_play1 w_r3' w_r4.
Definition w_r5 : cinputs * clevent := Eval vm_compute in (w_ci 5 [bs "wheel"], CData (w_reply w_sk2 w_r4' (w_info [bs "group"] w_cert2))).
Definition w_r5' := Eval vm_compute in w_play1 w_r4' w_r5.
Lemma w_redirected : exists h c x p, client_run toy w_file [] h c (NWait x (WProbe p)) /\ In (bs "group") (p_probe_keys p) /\
  exists pay els, i_params x = Some pay /\ parse pay = Some els /\ ~ In (Tlv T_ParameterKey (bs "group")) els.
Proof.
  assert (A : client_run toy w_file [] ((fst w_r3, Some (snd w_r3)) :: w_h2) (fst w_r3') (snd w_r3')) by w_step w_run_2.
  assert (B : client_run toy w_file [] ((fst w_r4, Some (snd w_r4)) :: (fst w_r3, Some (snd w_r3)) :: w_h2) (fst w_r4') (snd w_r4')) by w_step A.
  assert (C : client_run toy w_file [] ((fst w_r5, Some (snd w_r5)) :: (fst w_r4, Some (snd w_r4)) :: (fst w_r3, Some (snd w_r3)) :: w_h2) (fst w_r5') (snd w_r5')) by w_step B.
  do 2 eexists. exists (w_sent w_r5'). eexists. split; [exact C|]. split; [left; reflexivity|].
  do 2 eexists. split; [reflexivity|]. split; [vm_compute; reflexivity|]. intros I. repeat (destruct I as [I|I]; [discriminate I|]). exact I.
Qed.

(** Leaving on an error reply keeps the identity made for the request. *)
Definition w_e4x : cinputs * clevent := Eval vm_compute in (w_ci 4 [], CData (w_reply x_ca_sk w_3 (err_encode INVALID_PARAMETER (bs "no")))).
Definition w_4x := Eval vm_compute in w_play1 w_3 w_e4x.
Lemma w_left : exists h c, client_run toy w_file [] h c (NExit 1) /\ cl_pib c <> [].
Proof.
  exists ((fst w_e4x, Some (snd w_e4x)) :: w_h3), (fst w_4x). split; [|vm_compute; discriminate]. change (NExit 1) with (snd w_4x). w_step w_run_3.
Qed.
(** An identity without keys, and a new key asked for: two are created, one is deleted. *)
Definition w_bare : pib := [Ident (x_prefix ++ [gc (bs "alice")]) [] None].
Definition w_b0 : client * cnext := Eval vm_compute in client_start toy w_file w_bare (w_ci 0 [bs "0"]).
Definition w_b1 := Eval vm_compute in w_play1 w_b0 w_e1.
Definition w_b2 := Eval vm_compute in w_play1 w_b1 w_e2.
Definition w_f3 : cinputs * clevent := Eval vm_compute in (w_ci 3 [bs "1"; bs "NEW"], snd w_e3).
Definition w_b3 := Eval vm_compute in w_play1 w_b2 w_f3.
Definition w_f4 : cinputs * clevent := Eval vm_compute in (w_ci 4 [], CSignal).
Definition w_b4 := Eval vm_compute in w_play1 w_b3 w_f4.
Lemma w_two_keys : exists ci h c nx, client_run toy w_file w_bare ((ci, Some CSignal) :: h) c nx /\ key_ids_new w_bare h /\ cl_pib c <> w_bare.
Proof.
  assert (A0 : client_run toy w_file w_bare w_h0 (fst w_b0) (snd w_b0)) by (apply w_start; vm_compute; reflexivity).
  assert (A1 : client_run toy w_file w_bare w_h1 (fst w_b1) (snd w_b1)) by w_step A0.
  assert (A2 : client_run toy w_file w_bare w_h2 (fst w_b2) (snd w_b2)) by w_step A1.
  assert (A3 : client_run toy w_file w_bare ((fst w_f3, Some (snd w_f3)) :: w_h2) (fst w_b3) (snd w_b3)) by w_step A2.
  exists (fst w_f4), ((fst w_f3, Some (snd w_f3)) :: w_h2), (fst w_b4), (snd w_b4). split; [w_step A3|]. split; [|vm_compute; discriminate].
  intros ci ev i _ [<-|[]] [].
Qed.
(** The user interrupts a request. *)
Definition w_stop : pib := [Ident (x_prefix ++ [gc (bs "alice")]) [(x_prefix ++ [gc (bs "alice"); c_KEY; gc (bs "k0")], bs "old key")] (Some (x_prefix ++ [gc (bs "alice"); c_KEY; gc (bs "k0")]))].
Definition w_s0 : client * cnext := Eval vm_compute in client_start toy w_file w_stop (w_ci 0 [bs "0"]).
Definition w_s1 := Eval vm_compute in w_play1 w_s0 w_e1.
Definition w_s2 := Eval vm_compute in w_play1 w_s1 w_e2.
Definition w_s3 := Eval vm_compute in w_play1 w_s2 w_f3.
Definition w_s4 := Eval vm_compute in w_play1 w_s3 w_f4.
Lemma w_cleaned : exists ci h c nx, client_run toy w_file w_stop ((ci, Some CSignal) :: h) c nx /\ pib_sound w_stop /\ key_ids_new w_stop h /\
  exists h' c' nx', client_run toy w_file w_stop h' c' nx' /\ h = h' /\ cl_pib c' <> w_stop.
Proof.
  assert (A0 : client_run toy w_file w_stop w_h0 (fst w_s0) (snd w_s0)) by (apply w_start; vm_compute; reflexivity).
  assert (A1 : client_run toy w_file w_stop w_h1 (fst w_s1) (snd w_s1)) by w_step A0.
  assert (A2 : client_run toy w_file w_stop w_h2 (fst w_s2) (snd w_s2)) by w_step A1.
  assert (A3 : client_run toy w_file w_stop ((fst w_f3, Some (snd w_f3)) :: w_h2) (fst w_s3) (snd w_s3)) by w_step A2.
  exists (fst w_f4), ((fst w_f3, Some (snd w_f3)) :: w_h2), (fst w_s4), (snd w_s4). split; [w_step A3|].
  split. { intros i [<-|[]]. eexists. split; [reflexivity|left; reflexivity]. }
  split. { intros ci ev i I [<-|[]] [K|[]]. destruct I as [I|[I|[I|[I|[]]]]]; injection I as <- <-; discriminate K. }
  do 3 eexists. split; [exact A3|]. split; [reflexivity|vm_compute; discriminate].
Qed.
(** Hypotheses of the positive theorems. *)
Lemma w_rooted : exists h c x p s, client_run toy w_file [] h c (NWait x WChallenge) /\ cl_req c = Some s /\ rs_profile s = p.
Proof. exists w_h4, (fst w_4), (w_sent w_4). do 2 eexists. split; [exact w_run_4|]. split; reflexivity. Qed.
Lemma w_bad : exists h c x q, client_run toy w_file [] h c (NWait x (WProbe q)) /\ p_cert q = Some x_ca_cert /\ bad_reply toy x_ca_cert (Data [] [] 0 None []).
Proof.
  exists w_h2, (fst w_2), (w_sent w_2). eexists. split; [exact w_run_2|]. split; [vm_compute; reflexivity|]. apply y_bad.
Qed.
Lemma w_done : exists h c k, client_run toy w_file [] h c NDone /\ In k (cl_installed c) /\ cert_signed_by toy k (public_key x_ca_cert).
Proof. exists w_h7, (fst w_7), w_cert. split; [exact w_run_7|]. split; [left; reflexivity|]. vm_compute. reflexivity. Qed.
Lemma w_mailed : exists h c i ci d c' x s, client_run toy w_file [] h c (NWait i WNew) /\ client_step toy c WNew ci (CData d) = (c', NWait x WChallenge) /\
  cl_req c' = Some s /\ rs_ctype s = bs "email".
Proof.
  exists w_h3, (fst w_3), (w_sent w_3), (w_ci 4 []), (the_put (snd w_ca3)), (fst w_4), (w_sent w_4). eexists. split; [exact w_run_3|].
  split; [vm_compute; reflexivity|]. split; reflexivity.
Qed.
Lemma w_first : exists h c i ci d c' x p, client_run toy w_file [] h c (NWait i (WInfo [])) /\ client_step toy c (WInfo []) ci (CData d) = (c', NWait x (WProbe p)) /\
  exists m, cl_probe c' = Some m /\ email_of m (bs "alice@example").
Proof.
  exists w_h1, (fst w_1), (w_sent w_1), (w_ci 2 [bs "Alice@Example"; bs "alice"]), y_profile, (fst w_2), (w_sent w_2). eexists. split; [exact w_run_1|].
  split; [vm_compute; reflexivity|]. eexists. split; [reflexivity|]. exists []. eexists. split; [reflexivity|intros []].
Qed.
