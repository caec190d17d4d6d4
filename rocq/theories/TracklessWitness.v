(** A case for C132: a whole session up to the certificate, and the same NEW Interest again. *)
From Verif Require Import CaFacts TraceProps CaWitness TraceWitness TracklessFacts.
Local Open Scope N_scope.

Lemma tl_steps : steps toy x_cfg (db_ops toy) x_ca0 [x_e1; x_e2; x_e3; x_e4] (fst x_ca4).
Proof.
  eapply steps_cons; [rewrite x_step1; apply f_equal, surjective_pairing|]. eapply steps_cons; [rewrite x_step2; apply f_equal, surjective_pairing|].
  eapply steps_cons; [rewrite x_step3; apply f_equal, surjective_pairing|]. eapply steps_cons; [rewrite x_step4; apply f_equal, surjective_pairing|]. apply steps_nil.
Qed.
Lemma tl_about : all_about toy x_cfg z_id [x_e1; x_e2; x_e3; x_e4].
Proof.
  assert (NR : forall i x key, ~ starts_again key (EvInterest i x)) by (intros i x key [Q|(j & y & n & Q)]; discriminate Q).
  assert (CH : forall s i x es s', names_request x_cfg z_id x -> meant_for toy x_cfg z_id (HStep (S := db) s (EvInterest i x) es s')) by (intros s i x es s' N; exists i, x; split; [left; reflexivity|left; exact N]).
  intros st [<-|[<-|[<-|[<-|[]]]]]; (split; [|apply NR]).
  - exists (x_inputs x_now 1), x_new_interest. split; [left; reflexivity|]. right. exists RT_NEW, x_peer, x_creq. split; [left; split; [reflexivity|eexists; vm_compute; reflexivity]|].
    split; [apply carries_decode; [auto|vm_compute; reflexivity]|vm_compute; reflexivity].
  - apply CH. exists 8. eexists. split; [vm_compute; reflexivity|reflexivity].
  - apply CH. exists 8. eexists. split; [vm_compute; reflexivity|reflexivity].
  - apply CH. exists 8. eexists. split; [vm_compute; reflexivity|reflexivity].
Qed.
Lemma tl_over : pending (db_ops toy) x_ca0 z_id = None /\ pending (db_ops toy) (fst x_ca4) z_id = None /\ pending (db_ops toy) (fst x_ca3) z_id <> None /\ exists c, In (EIssue c) (h_effs x_e4).
Proof. split; [reflexivity|]. split; [vm_compute; reflexivity|]. split; [vm_compute; discriminate|]. eexists. left. reflexivity. Qed.
