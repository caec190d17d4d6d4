(** Concrete cases for C127. *)
From Coq Require Import Lia.
From Verif Require Export ReconfigClientFacts ReconfigSessionWitness ClientSessionWitness.
Local Open Scope N_scope.

(** The client applies under the first configuration; the CA is then started with the second. *)
Lemma uc_round : exists h c x ca, client_run toy w_file [] h c (NWait x WChallenge) /\
  in_round_change toy (db_ops toy) (bs "email") 300 u_id x_sk u_creq None (x_rin x_now 4) [(bs "email", bs "alice@example")] rs_cfg ca c x.
Proof.
  destruct u_opens as (h & c & x & R & HA & HO & _ & AP & P & SF).
  destruct (client_opens_c toy db (db_ops toy) _ _ h c x _ _ [] x_cfg _ x_ca0 (w_ci 4 []) x_id (gc (bs "k1")) x_sk _ _ _ _ _ toy_laws v_fits R HA HO rs_start0 AP P eq_refl SF) as (ca & d & c' & x' & _ & R' & IR).
  exists ((w_ci 4 [], Some (CData d)) :: h), c', x'. eexists. split; [exact R'|]. eapply client_meanwhile_c; [exact IR|apply (rs_change x_cfg rs_cfg); reflexivity|reflexivity].
Qed.
(** The challenge is started and two wrong codes are tried under the second; then the first is back. *)
Lemma uc_waiting : forall typed, blen typed < 2 ^ 30 -> exists h c x ca, client_run toy w_file [] h c (NWait x WChallenge) /\
  in_round_change toy (db_ops toy) (bs "email") 300 u_id x_sk u_creq (Some (x_code, 2%nat, x_now + sec 30)%Z) (x_rin x_now 7) [(bs "code", typed)] x_cfg ca c x.
Proof.
  intros typed B. destruct uc_round as (h & c & x & ca & R & IR).
  destruct (client_asked_c toy rs_cfg db (db_ops toy) _ _ h c x _ _ _ _ _ _ _ _ (x_inputs (x_now + sec 10) 2) (w_ci 5 [bs "000000"]) x_code (bs "000000") toy_laws life_email R IR) as (ca1 & d1 & c1 & x1 & _ & R1 & IR1);
    [constructor; meets|meets..|exact (u_clock 5)|reflexivity|meets|].
  destruct (client_wrong_c toy rs_cfg db (db_ops toy) _ _ _ c1 x1 _ _ _ _ _ _ _ _ _ _ _ (x_inputs (x_now + sec 20) 3) (w_ci 6 [bs "999999"]) (bs "999999") toy_laws life_email R1 IR1) as (ca2 & d2 & c2 & x2 & _ & R2 & IR2);
    [discriminate|meets|lia|meets|exact (u_clock 6)|reflexivity|meets|].
  destruct (client_wrong_c toy rs_cfg db (db_ops toy) _ _ _ c2 x2 _ _ _ _ _ _ _ _ _ _ _ (x_inputs (x_now + sec 30) 4) (w_ci 7 [typed]) typed toy_laws life_email R2 IR2) as (ca3 & d3 & c3 & x3 & _ & R3 & IR3);
    [discriminate|meets|lia|meets|exact (u_clock 7)|reflexivity|exact B|].
  eexists. exists c3, x3. eexists. split; [exact R3|]. eapply client_meanwhile_c; [exact IR3|apply (rs_change rs_cfg x_cfg); reflexivity|reflexivity].
Qed.
Lemma uc_history : forall ph ri params g ca c x, in_round_change toy (db_ops toy) (bs "email") 300 u_id x_sk u_creq (Some ph) ri params g ca c x -> exists tr, reconfigured toy (db_ops toy) tr g ca.
Proof.
  intros ph ri params g ca c x ((s & s1 & m & s2 & SE & _) & _).
  destruct (session_linked_c toy db (db_ops toy) _ _ _ _ _ _ g ca s toy_laws (fun _ => life_email) SE) as [LK _]. exact (lc_at _ _ _ _ _ _ _ LK).
Qed.
