(** An attacker who starts a pin challenge and presents 000000. *)
From Verif Require Export GuessWitness OddsFacts.
Local Open Scope N_scope.

Definition o_ev (n : nat) : event := match n with O => EvInterest g_i (fst n_chal1) | _ => g_ev 1 end.
Definition o_play (seen : list (list data)) : event := o_ev (length seen).
Definition o_run (w v : N) : list (hstep mem) :=
  [HStep (fst w_ca1) (dealt w (o_ev 0)) (snd g_a1) (fst g_a1); HStep (fst g_a1) (dealt v (o_ev 1)) (snd g_a2) (fst g_a2)].
Lemma o_step2 : step toy w_cfg mem_ops (fst g_a1) (dealt 7 (o_ev 1)) = Some g_a2.
Proof. vm_compute. reflexivity. Qed.
Lemma o_played : forall w, played o_play [w; 7] (o_run w 7).
Proof.
  intros w a st b Q. unfold o_run in Q. destruct a as [|u a]; [injection Q as <- _; exists w; split; reflexivity|].
  destruct a as [|v a]; [injection Q as <- <- _; exists 7; split; reflexivity|]. injection Q as _ _ Q. destruct a; discriminate Q.
Qed.
Lemma o_wins : forall w, w = 0 \/ w = 1 -> certified toy w_cfg mem_ops o_play (fst w_ca1) [w; 7].
Proof.
  intros w H. exists [HStep (fst w_ca1) (dealt w (o_ev 0)) (snd g_a1) (fst g_a1)], (HStep (fst g_a1) (dealt 7 (o_ev 1)) (snd g_a2) (fst g_a2)).
  exists (fst g_a2), (with_words [7] (x_inputs (x_now + sec 3500) 3)), (fst n_chal2), z_id, (bs "000000"). eexists.
  split; [|split; [exact (o_played w)|split; [left; reflexivity|split; [names_tac|split]]]].
  - cbn [app]. eapply steps_cons; [destruct H as [->| ->]; vm_compute; reflexivity|]. eapply steps_cons; [exact o_step2|apply steps_nil].
  - cbn [h_pre]. eexists. eexists. split; [vm_compute; reflexivity|]. split; vm_compute; reflexivity.
  - vm_compute. left. reflexivity.
Qed.
Lemma o_find : forall (m : mem) id r, mem_find id m = Some r -> In r (map snd m).
Proof. induction m as [|[k v] m IH]; intros id r H; cbn [mem_find] in H; [discriminate|]. destruct (bytes_eqb id k); [injection H as <-; left; reflexivity|right; eapply IH, H]. Qed.
Lemma o_no_codes : no_codes mem_ops (fst w_ca1).
Proof.
  intros id code (r & cs & P & C & _). apply o_find in P. assert (Q : Forall (fun r => rq_cs r = None) (map snd (ca_store (fst w_ca1)))) by (vm_compute; repeat constructor).
  rewrite Forall_forall in Q. rewrite (Q r P) in C. discriminate C.
Qed.
