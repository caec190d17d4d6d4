(** Endings of the client. *)
From Verif Require Export ClientWitness ClientEndFacts BufferFacts.
Local Open Scope N_scope.

(** The user types the CA's prefix, sees its profile and says no. *)
Definition v_lines : list bytes := Eval vm_compute in [bs "None"; toy_to_uri k_prefix].
Definition v_0 : client * cnext := Eval vm_compute in client_start toy w_file [] (w_ci 0 v_lines).
Definition v_1 := Eval vm_compute in w_play1 v_0 w_e1.
Definition v_e2 : cinputs * clevent := (w_ci 2 [bs "no"], CData y_profile).
Definition v_2 := Eval vm_compute in w_play1 v_1 v_e2.
Lemma v_declined : exists h c, client_run toy w_file [] h c (NExit 0).
Proof.
  assert (A : client_run toy w_file [] [(w_ci 0 v_lines, None)] (fst v_0) (snd v_0)) by (apply w_start; vm_compute; reflexivity).
  assert (B : client_run toy w_file [] ((fst w_e1, Some (snd w_e1)) :: [(w_ci 0 v_lines, None)]) (fst v_1) (snd v_1)) by w_step A.
  exists ((fst v_e2, Some (snd v_e2)) :: (fst w_e1, Some (snd w_e1)) :: [(w_ci 0 v_lines, None)]), (fst v_2). change (NExit 0) with (snd v_2). w_step B.
Qed.
Lemma v_done : exists h c, client_run toy w_file [] h c NDone.
Proof. exists w_h7, (fst w_7). exact w_run_7. Qed.
(** The CA offers a name that is not its own. *)
Definition v_e3 : cinputs * clevent := Eval vm_compute in (w_ci 3 [bs " 24 h"], CData (w_reply x_ca_sk w_2 (probe_encode [[gc (bs "elsewhere")]] None []))).
Definition v_3 := Eval vm_compute in w_play1 w_2 v_e3.
Lemma v_stranded : codec_laws toy /\ pib_named [] /\ (exists ci d h c, client_run toy w_file [] ((ci, Some (CData d)) :: h) c NIdle /\ exists c0 i p, client_run toy w_file [] h c0 (NWait i (WProbe p))) /\
  exists ci h c, client_run toy w_file [] ((ci, Some CTimeout) :: h) c NIdle.
Proof.
  split; [apply toy_laws|]. split; [intros i kn sk []|]. split.
  - exists (fst v_e3), (match snd v_e3 with CData d => d | _ => y_profile end), w_h2, (fst v_3). split.
    + change NIdle with (snd v_3). change (CData (match snd v_e3 with CData d => d | _ => y_profile end)) with (snd v_e3). w_step w_run_2.
    + exists (fst w_2), (w_sent w_2). eexists. exact w_run_2.
  - exists (w_ci 3 []), w_h2, (fst w_2). exact (w_run1 w_file [] w_h2 w_2 (w_ci 3 [], CTimeout) (fst w_2, NIdle) w_run_2 eq_refl ltac:(discriminate)).
Qed.
Lemma v_numbers : stoul (bs " +12 hours") = Some 12 /\ stoul (bs "-1") = Some 18446744073709551615 /\ stoul (bs "18446744073709551616") = None /\ stoul (bs "x1") = None.
Proof. repeat split; vm_compute; reflexivity. Qed.
(** A request in the middle of its challenge. *)
Lemma v_in_use : exists h c x s, client_run toy w_file [] h c (NWait x WChallenge) /\ (forall ci ev, In (ci, ev) h -> length (ci_id0 ci) = 8%nat) /\ cl_req c = Some s /\ rs_eiv s <> [].
Proof.
  exists w_h4, (fst w_4), (w_sent w_4). eexists. split; [exact w_run_4|]. split; [|split; [reflexivity|discriminate]].
  intros ci ev I. unfold w_h4, w_h3, w_h2, w_h1, w_h0 in I. repeat (destruct I as [I|I]; [injection I as <- _; reflexivity|]). destruct I.
Qed.
