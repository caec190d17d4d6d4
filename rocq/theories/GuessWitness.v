(** An attacker who presents the codes 000000, 000001 and 000002 in turn. *)
From Verif Require Export TraceWitness GuessFacts.
From Verif Require Import SecrecyWitness.
Local Open Scope N_scope.

Definition g_i : inputs := x_inputs (x_now + sec 10) 2.
Definition g_ev (n : nat) : event :=
  match n with
  | 0%nat => EvRestart []
  | 1%nat => EvInterest (x_inputs (x_now + sec 3500) 3) (fst n_chal2)
  | 2%nat => EvInterest (x_inputs (x_now + sec 3600) 4) (fst n_chal3)
  | _ => EvInterest (x_inputs (x_now + sec 3700) 5) (fst n_chal4)
  end.
Definition g_play (seen : list (list data)) : event := g_ev (length seen).
(** The runs, by the word drawn: 0, 4294 and 8588. *)
Definition g_a1 := Eval vm_compute in w_go (fst w_ca1) (with_words [0] g_i) (fst n_chal1).
Definition g_b1 := Eval vm_compute in w_go (fst w_ca1) (with_words [4294] g_i) (fst n_chal1).
Definition g_c1 := Eval vm_compute in w_go (fst w_ca1) (with_words [8588] g_i) (fst n_chal1).
Definition g_a2 := Eval vm_compute in w_go (fst g_a1) (x_inputs (x_now + sec 3500) 3) (fst n_chal2).
Definition g_b2 := Eval vm_compute in w_go (fst g_b1) (x_inputs (x_now + sec 3500) 3) (fst n_chal2).
Definition g_c2 := Eval vm_compute in w_go (fst g_c1) (x_inputs (x_now + sec 3500) 3) (fst n_chal2).
Definition g_b3 := Eval vm_compute in w_go (fst g_b2) (x_inputs (x_now + sec 3600) 4) (fst n_chal3).
Definition g_c3 := Eval vm_compute in w_go (fst g_c2) (x_inputs (x_now + sec 3600) 4) (fst n_chal3).
Definition g_c4 := Eval vm_compute in w_go (fst g_c3) (x_inputs (x_now + sec 3700) 5) (fst n_chal4).
Lemma g_sa1 : step toy w_cfg mem_ops (fst w_ca1) (EvInterest (with_words [0] g_i) (fst n_chal1)) = Some g_a1. Proof. vm_compute. reflexivity. Qed.
Lemma g_sb1 : step toy w_cfg mem_ops (fst w_ca1) (EvInterest (with_words [4294] g_i) (fst n_chal1)) = Some g_b1. Proof. vm_compute. reflexivity. Qed.
Lemma g_sc1 : step toy w_cfg mem_ops (fst w_ca1) (EvInterest (with_words [8588] g_i) (fst n_chal1)) = Some g_c1. Proof. vm_compute. reflexivity. Qed.
Lemma g_sa2 : step toy w_cfg mem_ops (fst g_a1) (g_ev 1) = Some g_a2. Proof. vm_compute. reflexivity. Qed.
Lemma g_sb2 : step toy w_cfg mem_ops (fst g_b1) (g_ev 1) = Some g_b2. Proof. vm_compute. reflexivity. Qed.
Lemma g_sc2 : step toy w_cfg mem_ops (fst g_c1) (g_ev 1) = Some g_c2. Proof. vm_compute. reflexivity. Qed.
Lemma g_sb3 : step toy w_cfg mem_ops (fst g_b2) (g_ev 2) = Some g_b3. Proof. vm_compute. reflexivity. Qed.
Lemma g_sc3 : step toy w_cfg mem_ops (fst g_c2) (g_ev 2) = Some g_c3. Proof. vm_compute. reflexivity. Qed.
Lemma g_sc4 : step toy w_cfg mem_ops (fst g_c3) (g_ev 3) = Some g_c4. Proof. vm_compute. reflexivity. Qed.
Definition g_ea1 := HStep (fst w_ca1) (EvInterest (with_words [0] g_i) (fst n_chal1)) (snd g_a1) (fst g_a1).
Definition g_eb1 := HStep (fst w_ca1) (EvInterest (with_words [4294] g_i) (fst n_chal1)) (snd g_b1) (fst g_b1).
Definition g_ec1 := HStep (fst w_ca1) (EvInterest (with_words [8588] g_i) (fst n_chal1)) (snd g_c1) (fst g_c1).
Definition g_ea2 := HStep (fst g_a1) (g_ev 1) (snd g_a2) (fst g_a2).
Definition g_eb2 := HStep (fst g_b1) (g_ev 1) (snd g_b2) (fst g_b2).
Definition g_ec2 := HStep (fst g_c1) (g_ev 1) (snd g_c2) (fst g_c2).
Definition g_eb3 := HStep (fst g_b2) (g_ev 2) (snd g_b3) (fst g_b3).
Definition g_ec3 := HStep (fst g_c2) (g_ev 2) (snd g_c3) (fst g_c3).
Definition g_ec4 := HStep (fst g_c3) (g_ev 3) (snd g_c4) (fst g_c4).
Lemma g_follows : forall (u : hstep mem) tr, (forall n st, nth_error tr n = Some st -> h_ev st = g_ev (Datatypes.S n)) -> follows g_play (u :: tr).
Proof.
  intros u tr H a st b Q NE. destruct a as [|v a]; [contradiction|]. cbn [app] in Q. injection Q as <- Q. unfold g_play, sent. rewrite map_length. cbn [length].
  apply H. rewrite Q, nth_error_app2 by apply le_n. rewrite PeanoNat.Nat.sub_diag. reflexivity.
Qed.
Ltac g_play_tac := apply g_follows; intros n st Q; repeat (destruct n as [|n]; cbn [nth_error] in Q; [injection Q as <-; reflexivity|]); destruct n; discriminate Q.
Ltac g_answered_tac := intros st IN _; repeat (destruct IN as [<-|IN]; [vm_compute; discriminate|]); destruct IN.
Ltac g_run w H := split; [exists [w]; split; vm_compute; reflexivity|eexists; repeat (eapply steps_cons; [apply some_pair; H|]); apply steps_nil|g_play_tac|
  eexists; eexists; split; [vm_compute; reflexivity|]; split; vm_compute; reflexivity|g_answered_tac|no_add_tac].
Ltac g_issue := eexists; vm_compute; left; reflexivity.
Lemma g_a : obtained toy w_cfg mem_ops g_play (fst w_ca1) g_i (fst n_chal1) z_id (bs "000000").
Proof.
  exists g_ea1, [], g_ea2. do 3 eexists. split; [cbn [app]; g_run 0 ltac:(first [exact g_sa1|exact g_sa2])|]. split; [left; reflexivity|]. split; [names_tac|vm_compute; left; reflexivity].
Qed.
Lemma g_b : obtained toy w_cfg mem_ops g_play (fst w_ca1) g_i (fst n_chal1) z_id (bs "000001").
Proof.
  exists g_eb1, [g_eb2], g_eb3. do 3 eexists. split; [cbn [app]; g_run 4294 ltac:(first [exact g_sb1|exact g_sb2|exact g_sb3])|]. split; [left; reflexivity|]. split; [names_tac|vm_compute; left; reflexivity].
Qed.
Lemma g_c : obtained toy w_cfg mem_ops g_play (fst w_ca1) g_i (fst n_chal1) z_id (bs "000002").
Proof.
  exists g_ec1, [g_ec2; g_ec3], g_ec4. do 3 eexists. split; [cbn [app]; g_run 8588 ltac:(first [exact g_sc1|exact g_sc2|exact g_sc3|exact g_sc4])|]. split; [left; reflexivity|]. split; [names_tac|vm_compute; left; reflexivity].
Qed.
