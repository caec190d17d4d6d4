(** Two runs of the client in which other codes are typed. *)
From Verif Require Export TypedFacts ClientWitness.
Local Open Scope N_scope.

(** The run of [w_h6], with another code of six digits typed: another Interest, and the same reply to it. *)
Definition t_ci : cinputs := with_lines [bs "271828"] (fst w_e5).
Definition t_e5 : cinputs * clevent := (t_ci, snd w_e5).
Definition t_5 : client * cnext := Eval vm_compute in w_play1 w_4 t_e5.
Definition t_d6 : data := match snd w_e6 with CData d => d | _ => y_profile end.
Definition t_d6' : data := Eval vm_compute in
  mk_data toy x_cfg (i_name (w_sent t_5)) (d_content t_d6) (d_fresh t_d6) (d_final t_d6).
Definition t_e6 : cinputs * clevent := (fst w_e6, CData t_d6').
Definition t_6 : client * cnext := Eval vm_compute in w_play1 t_5 t_e6.
Definition t_h5 : history := (fst t_e5, Some (snd t_e5)) :: w_h4.
Definition t_h6 : history := (fst t_e6, Some (snd t_e6)) :: t_h5.
Lemma t_run_5 : client_run toy w_file [] t_h5 (fst t_5) (snd t_5).
Proof. w_step w_run_4. Qed.
Lemma t_run_6 : client_run toy w_file [] t_h6 (fst t_6) (snd t_6).
Proof. w_step t_run_5. Qed.

Lemma t_same4 : same_but_typed toy w_file [] w_h4 w_h4.
Proof. unfold w_h4, w_h3, w_h2, w_h1, w_h0. repeat apply sbt_same. apply sbt_start. Qed.
Lemma t_wait4 : exists x, snd w_4 = NWait x WChallenge.
Proof. eexists. vm_compute. reflexivity. Qed.
Lemma t_wait5 : exists x, snd w_5 = NWait x WChallenge.
Proof. eexists. vm_compute. reflexivity. Qed.
Lemma t_data5 : exists d, snd w_e5 = CData d.
Proof. eexists. reflexivity. Qed.
Lemma t_same5 : same_but_typed toy w_file [] w_h5 t_h5.
Proof.
  destruct t_wait4 as [x X]. destruct t_data5 as [d D]. unfold w_h5, t_h5, t_e5. cbn [fst snd]. rewrite D. pose proof w_run_4 as R. rewrite X in R. pose proof w_run_5 as R5. unfold w_h5 in R5. rewrite D in R5.
  refine (sbt_typed toy w_file [] _ _ _ d d (fst w_4) x _ (fst w_5) (snd w_5) t_same4 R _ R5 _ _).
  - split; [reflexivity|]. intros. reflexivity.
  - eexists. split; vm_compute; reflexivity.
  - vm_compute. repeat constructor.
Qed.
Lemma t_reply : same_reply toy (fst w_5) t_d6 t_d6'.
Proof.
  split; [vm_compute; reflexivity|]. intros s k RQ PC. vm_compute in RQ. injection RQ as <-. vm_compute in PC. injection PC as <-. split; intros _; vm_compute; reflexivity.
Qed.
Lemma t_same6 : same_but_typed toy w_file [] w_h6 t_h6.
Proof.
  destruct t_wait5 as [x X]. pose proof w_run_5 as R. rewrite X in R. unfold w_h6, t_h6, t_e6. cbn [fst snd]. change (snd w_e6) with (CData t_d6).
  exact (sbt_reply toy w_file [] _ _ _ t_d6 t_d6' (fst w_5) x t_same5 R t_reply).
Qed.
Lemma t_case : exists h h' c nx c' nx', aes_laws toy /\ same_but_typed toy w_file [] h h' /\ client_run toy w_file [] h c nx /\ client_run toy w_file [] h' c' nx' /\
  (exists x x', nx = NWait x WChallenge /\ nx' = NWait x' WChallenge /\ params_of x <> params_of x') /\
  exists h1 h1' c1 c1' x1, h1 = (fst w_e6, Some (CData t_d6)) :: h /\ same_but_typed toy w_file [] h1 h1' /\ client_run toy w_file [] h1 c1 (NWait x1 WCert) /\ client_run toy w_file [] h1' c1' (NWait x1 WCert).
Proof.
  exists w_h5, t_h5, (fst w_5), (snd w_5), (fst t_5), (snd t_5). split; [exact (laws_aes toy toy_laws)|]. split; [exact t_same5|]. split; [exact w_run_5|]. split; [exact t_run_5|].
  split; [eexists; eexists; split; [vm_compute; reflexivity|]; split; [vm_compute; reflexivity|vm_compute; discriminate]|].
  exists w_h6, t_h6, (fst w_6), (fst t_6), (w_sent w_6). split; [reflexivity|]. split; [exact t_same6|]. split; [exact w_run_6|exact t_run_6].
Qed.

(** The address the user types is sent in the clear. *)
Definition t_e2 : cinputs * clevent := (w_ci 2 [bs "alice@example"; bs "alice"], CData y_profile).
Definition t_2 : client * cnext := Eval vm_compute in w_play1 w_1 t_e2.
Lemma t_run_2 : client_run toy w_file [] ((fst t_e2, Some (snd t_e2)) :: w_h1) (fst t_2) (snd t_2).
Proof. w_step w_run_1. Qed.
Lemma t_address : exists h c x p ci d, client_run toy w_file [] ((ci, Some (CData d)) :: h) c (NWait x (WProbe p)) /\ In (bs "alice@example") (ci_lines ci) /\
  exists els, parse (params_of x) = Some els /\ In (Tlv T_ParameterValue (bs "alice@example")) els.
Proof.
  exists w_h1, (fst t_2), (w_sent t_2). eexists. exists (fst t_e2), y_profile. split; [exact t_run_2|].
  split; [left; reflexivity|]. eexists. split; [vm_compute; reflexivity|]. right. left. reflexivity.
Qed.
