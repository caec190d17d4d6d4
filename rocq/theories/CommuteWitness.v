(** A case for C133: a customer's NEW request and another's CHALLENGE Interest. *)
From Verif Require Import CaFacts TraceProps IsolationWitness CommuteFacts.
Local Open Scope N_scope.

Lemma cm_new : only_about toy w_cfg u_id i_e2.
Proof.
  split; [|intros key [Q|(i & x & n & Q)]; discriminate Q]. exists (x_inputs (x_now + sec 45) 5), u_new. split; [left; reflexivity|]. right. exists RT_NEW, x_peer, u_creq.
  split; [left; split; [reflexivity|eexists; vm_compute; reflexivity]|]. split; [apply carries_decode; [auto|vm_compute; reflexivity]|vm_compute; reflexivity].
Qed.
Lemma cm_chal : only_about toy w_cfg v_id i_e3.
Proof. split; [exact i_third|intros key [Q|(i & x & n & Q)]; discriminate Q]. Qed.
Lemma cm_differ : u_id <> v_id /\ puts (h_effs i_e2) <> [] /\ puts (h_effs i_e3) <> [] /\ pending mem_ops (fst u_ca2) u_id <> None /\ pending mem_ops (fst u_ca2) v_id <> None.
Proof. split; [vm_compute; discriminate|]. split; [vm_compute; discriminate|]. split; [vm_compute; discriminate|]. split; vm_compute; discriminate. Qed.
Definition cm_l : labelled := [(v_id, seen i_e1); (u_id, seen i_e2); (v_id, seen i_e3)].
Definition cm_l' : labelled := [(u_id, seen i_e2); (v_id, seen i_e1); (v_id, seen i_e3)].
Lemma cm_about : forall k id (st : hstep mem), ca_idkey (h_pre st) = k -> only_about toy w_cfg id st -> (forall i x n key, h_ev st <> EvCrash i x n key) -> interest_about toy w_cfg k id (h_ev st).
Proof. intros k id st K [(i & x & [EV|(n & key & EV)] & M) _] NC; [|destruct (NC _ _ _ _ EV)]. exists i, x. split; [exact EV|]. rewrite <- K. exact M. Qed.
Lemma cm_labels : Forall (fun p => interest_about toy w_cfg (ca_idkey v_ca0) (fst p) (fst (snd p))) cm_l.
Proof.
  repeat apply Forall_cons; [| | |apply Forall_nil]; cbn [fst snd seen].
  - apply (cm_about _ v_id i_e1); [reflexivity|split; [exact i_first|intros key [Q|(i & x & n & Q)]; discriminate Q]|intros; discriminate].
  - apply (cm_about _ u_id i_e2); [vm_compute; reflexivity|exact cm_new|intros; discriminate].
  - apply (cm_about _ v_id i_e3); [vm_compute; reflexivity|exact cm_chal|intros; discriminate].
Qed.
Lemma cm_order : forall id, of_request id cm_l' = of_request id cm_l.
Proof.
  intros id. unfold of_request, cm_l, cm_l'. cbn [filter fst]. destruct (bytes_eqb u_id id) eqn:B; [|reflexivity].
  apply bytes_eqb_eq in B. subst id. assert (Q : bytes_eqb v_id u_id = false) by (vm_compute; reflexivity). rewrite Q. reflexivity.
Qed.
