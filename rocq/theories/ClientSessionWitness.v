(** Concrete cases for the command line client talking to an honest CA. *)
From Verif Require Export ClientSessionFacts SessionWitness EndToEndWitness ClientWitness.
Local Open Scope N_scope.

(** The list with the example CA. *)
Definition u_prefix : bytes := Eval vm_compute in o_to_uri toy x_prefix.
Definition u_file : option ptree := Some (k_obj [(bs "ca-list", k_arr [k_plain; k_obj [(bs "ca-prefix", k_str u_prefix); (bs "certificate", k_str k_cert)]])]).
Definition u_known : profile := Profile x_prefix (x_prefix ++ [gc (bs "CA")]) [] [] 86400 None [] (Some x_ca_cert).
Lemma u_loads : store_load toy u_file = Ok [k_plain_profile; u_known].
Proof. vm_compute. reflexivity. Qed.
Lemma u_publishable : publishable toy x_cfg.
Proof. destruct y_own as (A & B & C & D & F & G & H & I & J). unfold publishable. do 5 (split; [assumption|]). split; [left; discriminate|]. auto. Qed.
Lemma u_asks : exists n last, reachable toy x_cfg (db_ops toy) x_ca0 /\ p_prefix (cfp x_cfg) = n ++ [last] /\ t_val last <> bs "CA" /\ in_mversion (x_inputs x_now 1) < 2 ^ 64 /\ publishable toy x_cfg /\
  store_load toy u_file = Ok [k_plain_profile; u_known] /\ stoul (bs "1") = Some 1 /\ p_prefix u_known = p_prefix (cfp x_cfg) /\ p_cert u_known = Some x_ca_cert /\ public_key x_ca_cert = o_pub toy (cf_sk x_cfg).
Proof.
  exists [gc (bs "ndn")], (gc (bs "site")). split; [apply x_at0|]. split; [reflexivity|]. split; [discriminate|]. split; [reflexivity|]. split; [exact u_publishable|]. split; [exact u_loads|]. repeat split.
Qed.
Definition u_params : mmap := Eval vm_compute in match cl_probe (fst w_2) with Some m => m | None => [] end.
Definition u_profile : profile := Eval vm_compute in match snd w_2 with NWait _ (WProbe p) => p | _ => x_profile end.
Lemma u_applies : exists h c x, client_run toy w_file [] h c (NWait x (WProbe u_profile)) /\ p_prefix u_profile = p_prefix (cfp x_cfg) /\ p_cert u_profile = Some x_ca_cert /\ public_key x_ca_cert = o_pub toy (cf_sk x_cfg) /\
  cl_probe c = Some u_params /\ Forall (fun kv => fits (fst kv) /\ fits (snd kv)) u_params /\ targets toy u_params (cf_redirect (cf x_cfg)) [] /\ offers toy u_params (assigns x_cfg) (in_words64 (x_inputs x_now 1)) [[gc (bs "alice")]] /\
  Forall (probe_fits (p_maxsuffix (cfp x_cfg))) (map (app (p_prefix (cfp x_cfg))) [[gc (bs "alice")]]) /\ chooses [bs "1"] [[gc (bs "alice")]] [gc (bs "alice")] [bs "1"] /\ stoul (bs "1") = Some 1 /\
  adds_up x_now (sec (to_i32 1 * 3600)) /\ picks [] (w_ci 3 [bs "1"]) [] (p_prefix (cfp x_cfg) ++ [gc (bs "alice")]) (gc (bs "k1")) x_sk.
Proof.
  exists w_h2, (fst w_2), (w_sent w_2). split; [exact w_run_2|]. split; [reflexivity|]. split; [reflexivity|]. split; [reflexivity|]. split; [reflexivity|].
  split; [meets|]. split; [constructor|]. split; [apply suffixes_offers; vm_compute; reflexivity|].
  split; [constructor; [split; meets|constructor]|]. split; [constructor|]. split; [reflexivity|]. split; [split; unfold in_i64; meets|]. apply pk_identity. reflexivity.
Qed.
Definition u_req0 : rstate := request_init u_profile RT_NEW (bs "alice ephemeral") (repeat x00 8).
Definition u_creq : cert := Eval vm_compute in cert_request toy x_sk (x_rin x_now 3) x_keyname x_now (x_now + sec 3600).
Definition u_id : bytes := Eval vm_compute in id_for toy (ca_idkey x_ca0) (c_name u_creq).
Lemma u_apply : applies toy x_cfg u_req0 (x_rin x_now 3) (x_inputs x_now 1) x_keyname x_sk x_now (x_now + sec 3600).
Proof.
  constructor.
  - exists u_profile, (bs "alice ephemeral"), (repeat x00 8). split; reflexivity.
  - reflexivity.
  - exists x_ca_cert. split; [reflexivity|vm_compute; reflexivity].
  - exists [gc (bs "alice")], (gc (bs "k1")). split; [reflexivity|]. split; [discriminate|]. intros k K. vm_compute in K. injection K as <-. vm_compute. discriminate.
  - eexists _, _. split; [vm_compute; reflexivity|]. meets.
  - eexists _, _. split; [reflexivity|]. unfold period_policy. meets.
  - meets.
Qed.
Lemma u_opens : exists h c x, client_run toy w_file [] h c (NWait x WNew) /\ has_applied toy c x u_req0 (x_rin x_now 3) (x_id ++ [gc (bs "KEY"); gc (bs "k1")]) x_sk x_now (x_now + sec 3600) /\
  holds (cl_pib c) x_id (gc (bs "k1")) x_sk /\ ca_at toy x_cfg (db_ops toy) x_ca0 /\ applies toy x_cfg u_req0 (x_rin x_now 3) (x_inputs x_now 1) (x_id ++ [gc (bs "KEY"); gc (bs "k1")]) x_sk x_now (x_now + sec 3600) /\
  pending (db_ops toy) x_ca0 u_id = None /\ selects_first x_cfg c (ci_lines (w_ci 4 [])) (bs "email") 300 [(bs "email", bs "alice@example")].
Proof.
  exists w_h3, (fst w_3), (w_sent w_3). split; [exact w_run_3|]. split; [eexists; split; vm_compute; reflexivity|]. split; [eexists; split; vm_compute; reflexivity|].
  split; [exact x_at0|]. split; [exact u_apply|]. split; [reflexivity|]. eapply sf_email; [right; left; reflexivity|vm_compute; reflexivity| |reflexivity].
  exists []. eexists. split; [reflexivity|intros []].
Qed.
Lemma u_round : exists h c x ca, client_run toy w_file [] h c (NWait x WChallenge) /\
  in_round toy x_cfg (db_ops toy) (bs "email") 300 u_id x_sk u_creq None (x_rin x_now 4) [(bs "email", bs "alice@example")] ca c x.
Proof.
  destruct u_opens as (h & c & x & R & HA & HO & A & AP & P & SF).
  destruct (client_opens toy x_cfg db (db_ops toy) _ _ h c x _ _ _ x_ca0 (w_ci 4 []) x_id (gc (bs "k1")) x_sk _ _ _ _ _ toy_laws v_fits R HA HO A AP P eq_refl SF) as (ca & d & c' & x' & _ & R' & IR).
  exists ((w_ci 4 [], Some (CData d)) :: h), c', x', ca. split; [exact R'|exact IR].
Qed.
Lemma u_clock : forall n, clock_ok (ci_ri (w_ci n [])).
Proof. intros n. unfold clock_ok. meets. Qed.
(** The CA restarts, the user is asked for the code and types a wrong one, twice. *)
Lemma u_waiting : forall typed, blen typed < 2 ^ 30 -> exists h c x ca, client_run toy w_file [] h c (NWait x WChallenge) /\
  in_round toy x_cfg (db_ops toy) (bs "email") 300 u_id x_sk u_creq (Some (x_code, 2%nat, x_now + sec 30)%Z) (x_rin x_now 7) [(bs "code", typed)] ca c x.
Proof.
  intros typed B. destruct u_round as (h & c & x & ca & R & IR).
  pose proof (client_meanwhile toy x_cfg db (db_ops toy) _ _ _ _ _ _ _ _ _ _ _ _ IR (v_restart _ _ _)) as IR0.
  destruct (client_asked toy x_cfg db (db_ops toy) _ _ h c x _ _ _ _ _ _ _ _ (x_inputs (x_now + sec 10) 2) (w_ci 5 [bs "000000"]) x_code (bs "000000") toy_laws v_fits life_email R IR0) as (ca1 & d1 & c1 & x1 & _ & R1 & IR1);
    [constructor; meets|meets..|exact (u_clock 5)|reflexivity|meets|].
  destruct (client_wrong toy x_cfg db (db_ops toy) _ _ _ c1 x1 _ _ _ _ _ _ _ _ _ _ _ (x_inputs (x_now + sec 20) 3) (w_ci 6 [bs "999999"]) (bs "999999") toy_laws v_fits life_email R1 IR1) as (ca2 & d2 & c2 & x2 & _ & R2 & IR2);
    [discriminate|meets|lia|meets|exact (u_clock 6)|reflexivity|meets|].
  destruct (client_wrong toy x_cfg db (db_ops toy) _ _ _ c2 x2 _ _ _ _ _ _ _ _ _ _ _ (x_inputs (x_now + sec 30) 4) (w_ci 7 [typed]) typed toy_laws v_fits life_email R2 IR2) as (ca3 & d3 & c3 & x3 & _ & R3 & IR3);
    [discriminate|meets|lia|meets|exact (u_clock 7)|reflexivity|exact B|].
  eexists. exists c3, x3, ca3. split; [exact R3|exact IR3].
Qed.
Lemma u_history : forall ph ri params ca c x, in_round toy x_cfg (db_ops toy) (bs "email") 300 u_id x_sk u_creq (Some ph) ri params ca c x -> exists tr, ca_history toy x_cfg (db_ops toy) tr ca.
Proof.
  intros ph ri params ca c x ((s & s1 & m & s2 & SE & _) & _).
  destruct (session_linked toy x_cfg db (db_ops toy) _ _ _ _ _ _ ca s toy_laws v_fits (fun _ => life_email) SE) as [LK _]. destruct (history_of _ _ _ _ _ (lk_at _ _ _ _ _ _ _ LK)) as (tr & H). eauto.
Qed.
