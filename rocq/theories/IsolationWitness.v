(** Two customers at once, and one of them alone. *)
From Verif Require Export CaWitness IsolationFacts.
From Verif Require Import CaFacts TraceProps.
Local Open Scope N_scope.

Definition i_e1 := HStep v_ca0 (EvInterest (x_inputs (x_now + sec 40) 5) v_interest) (snd v_ca1) (fst v_ca1).
Definition i_e2 := HStep (fst v_ca1) (EvInterest (x_inputs (x_now + sec 45) 5) u_new) (snd u_ca1) (fst u_ca1).
Definition i_e3 := HStep (fst u_ca1) (EvInterest (x_inputs (x_now + sec 50) 6) (fst v_chal1)) (snd u_ca2) (fst u_ca2).
Definition i_f3 := HStep (fst v_ca1) (EvInterest (x_inputs (x_now + sec 50) 6) (fst v_chal1)) (snd v_ca2) (fst v_ca2).
Lemma i_step2 : step toy w_cfg mem_ops (fst v_ca1) (EvInterest (x_inputs (x_now + sec 45) 5) u_new) = Some (fst u_ca1, snd u_ca1).
Proof. vm_compute. reflexivity. Qed.
Lemma i_steps : steps toy w_cfg mem_ops v_ca0 [i_e1; i_e2; i_e3] (fst u_ca2).
Proof. eapply steps_cons; [rewrite v_step1; apply f_equal, surjective_pairing|]. eapply steps_cons; [exact i_step2|]. eapply steps_cons; [rewrite u_step2; apply f_equal, surjective_pairing|]. apply steps_nil. Qed.
Lemma i_alone_steps : steps toy w_cfg mem_ops v_ca0 [i_e1; i_f3] (fst v_ca2).
Proof. eapply steps_cons; [rewrite v_step1; apply f_equal, surjective_pairing|]. eapply steps_cons; [rewrite v_step2; apply f_equal, surjective_pairing|]. apply steps_nil. Qed.
Lemma i_other : ~ meant_for toy w_cfg v_id i_e2.
Proof.
  intros (i & x & H & M). apply ev_handles in H. injection H as <- <-. destruct M as [(ty & rest & Q & _)|(rt & peer & c & RT & C & ID)]; [vm_compute in Q; discriminate Q|].
  destruct RT as [[-> AD]|[-> AD]]; [|destruct AD as [rest Q]; vm_compute in Q; discriminate Q].
  apply carries_decode in C; [|auto]. assert (D : req_decode toy RT_NEW (params_of u_new) = Ok (x_peer, u_creq)) by (vm_compute; reflexivity).
  rewrite D in C. injection C as <- <-. revert ID. vm_compute. discriminate.
Qed.
Lemma i_first : meant_for toy w_cfg v_id i_e1.
Proof.
  exists (x_inputs (x_now + sec 40) 5), v_interest. split; [left; reflexivity|]. right. exists RT_REVOKE, x_peer, w_cert. split; [right; split; [reflexivity|]|split; [|vm_compute; reflexivity]].
  - eexists. vm_compute. reflexivity.
  - apply carries_decode; [auto|vm_compute; reflexivity].
Qed.
Lemma i_third : meant_for toy w_cfg v_id i_e3.
Proof. exists (x_inputs (x_now + sec 50) 6), (fst v_chal1). split; [left; reflexivity|]. left. exists 8. eexists. split; [vm_compute; reflexivity|reflexivity]. Qed.
Lemma i_alone : alone toy w_cfg v_id [i_e1; i_e2; i_e3] [i_e1; i_f3].
Proof.
  apply alone_keep; [exact i_first|reflexivity|reflexivity|]. apply alone_drop; [exact i_other|intros key [Q|(i & x & n & Q)]; discriminate Q|].
  apply alone_keep; [exact i_third|reflexivity|vm_compute; reflexivity|]. apply alone_nil.
Qed.
