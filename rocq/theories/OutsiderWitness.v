(** A case for C131: a request before its challenge, and the same in a pin challenge; a stranger probes it. *)
From Verif Require Import TraceProps TraceWitness CaWitness CrashWitness OutsiderFacts.
Local Open Scope N_scope.

Definition q_i1 := x_inputs (x_now + sec 20) 7.
Definition q_i2 := x_inputs (x_now + sec 45) 5.
Definition q_ca1 := Eval vm_compute in w_go (fst w_ca1) q_i1 u_forged.
Definition q_ca2 := Eval vm_compute in w_go (fst q_ca1) q_i2 u_new.
Definition q_e1 := HStep (fst w_ca1) (EvInterest q_i1 u_forged) (snd q_ca1) (fst q_ca1).
Definition q_e2 := HStep (fst q_ca1) (EvInterest q_i2 u_new) (snd q_ca2) (fst q_ca2).
Lemma q_steps : steps toy w_cfg mem_ops (fst w_ca1) [q_e1; q_e2] (fst q_ca2).
Proof. eapply steps_cons; [vm_compute; reflexivity|]. eapply steps_cons; [vm_compute; reflexivity|]. apply steps_nil. Qed.
Lemma q_apart : pending mem_ops (fst w_ca1) z_id <> pending mem_ops (fst n_ca2) z_id.
Proof. vm_compute. discriminate. Qed.
Lemma q_but : same_but mem_ops z_id (fst w_ca1) (fst n_ca2).
Proof.
  constructor; [reflexivity|reflexivity| |vm_compute; split; discriminate].
  intros id' D. assert (B : bytes_eqb id' z_id = false) by (destruct (bytes_eqb id' z_id) eqn:B; [apply bytes_eqb_eq in B; contradiction|reflexivity]).
  assert (B' : bytes_eqb z_id id' = false) by (destruct (bytes_eqb z_id id') eqn:B'; [apply bytes_eqb_eq in B'; congruence|reflexivity]).
  assert (Q : forall (s : ca_state mem) r, ca_store s = [(z_id, r)] -> pending mem_ops s id' = None).
  { intros s r H. unfold pending. cbn [mem_ops s_get]. unfold mem_get. rewrite H. cbn [mem_find]. rewrite ?B, ?B'. reflexivity. }
  rewrite (Q (fst w_ca1) _ eq_refl), (Q (fst n_ca2) _ eq_refl). reflexivity.
Qed.
Lemma q_foreign : forall r, pending mem_ops (fst w_ca1) z_id = Some r \/ pending mem_ops (fst n_ca2) z_id = Some r -> not_the_owner toy w_cfg z_id (public_key (rq_cert r)) [q_e1; q_e2].
Proof.
  intros r P. assert (K : public_key (rq_cert r) = public_key (rq_cert w_pending)) by (destruct P as [P|P]; vm_compute in P; injection P as <-; vm_compute; reflexivity). rewrite K.
  intros st i x [<-|[<-|[]]] HD N; apply ev_handles in HD; cbn [h_ev q_e1 q_e2 ev_interest] in HD; injection HD as <- <-; [exact u_forged_unsigned|].
  exfalso. destruct N as (ty & rest & Q & _). vm_compute in Q. discriminate Q.
Qed.
Lemma q_no_add : no_add z_id [q_e1; q_e2].
Proof. repeat constructor; intros (r & IN & ID); vm_compute in IN; repeat (destruct IN as [IN|IN]; [try discriminate IN; injection IN as <-; vm_compute in ID; discriminate ID|]); destruct IN. Qed.
Lemma q_replies : length (puts (snd q_ca1)) = 1%nat /\ length (puts (snd q_ca2)) = 1%nat /\ pending mem_ops (fst q_ca2) u_id <> None.
Proof. split; [reflexivity|]. split; [reflexivity|vm_compute; discriminate]. Qed.

(** The same with SQLite, and a restart. *)
Definition q_ca3 := Eval vm_compute in match step toy x_cfg (db_ops toy) (fst x_ca1) (EvInterest q_i1 u_forged) with Some p => p | None => x_ca1 end.
Definition q_e3 := HStep (fst x_ca1) (EvInterest q_i1 u_forged) (snd q_ca3) (fst q_ca3).
Definition q_ca4 := Eval vm_compute in restart (db_ops toy) (bs "new key") (fst q_ca3).
Definition q_e4 := HStep (fst q_ca3) (EvRestart (bs "new key")) [] q_ca4.
Definition q_r : request := Eval vm_compute in match pending (db_ops toy) (fst x_ca1) z_id with Some r => r | None => w_pending end.
Definition q_r' : request := Eval vm_compute in match pending (db_ops toy) (fst x_ca2) z_id with Some r => r | None => w_pending end.
Lemma q_pending : pending (db_ops toy) (fst x_ca1) z_id = Some q_r /\ pending (db_ops toy) (fst x_ca2) z_id = Some q_r' /\ q_r <> q_r'.
Proof. split; [vm_compute; reflexivity|]. split; [vm_compute; reflexivity|vm_compute; discriminate]. Qed.
Lemma q_steps_db : steps toy x_cfg (db_ops toy) (fst x_ca1) [q_e3; q_e4] q_ca4.
Proof. eapply steps_cons; [vm_compute; reflexivity|]. eapply steps_cons; [vm_compute; reflexivity|]. apply steps_nil. Qed.
Lemma q_but_db : same_but (db_ops toy) z_id (fst x_ca1) (fst x_ca2).
Proof.
  constructor; [reflexivity|reflexivity| |vm_compute; split; discriminate].
  intros id' D. assert (B : bytes_eqb id' z_id = false) by (destruct (bytes_eqb id' z_id) eqn:B; [apply bytes_eqb_eq in B; contradiction|reflexivity]).
  assert (B' : bytes_eqb z_id id' = false) by (destruct (bytes_eqb z_id id') eqn:B'; [apply bytes_eqb_eq in B'; congruence|reflexivity]).
  assert (Q : forall (s : ca_state db) w, ca_store s = [w] -> r_id w = z_id -> pending (db_ops toy) s id' = None).
  { intros s w H H1. unfold pending. cbn [db_ops s_get]. unfold db_get, db_row. rewrite H. cbn [find]. rewrite H1, ?B, ?B'. reflexivity. }
  rewrite (Q (fst x_ca1) _ eq_refl eq_refl), (Q (fst x_ca2) _ eq_refl eq_refl). reflexivity.
Qed.
Lemma q_foreign_db : not_the_owner toy x_cfg z_id (public_key (rq_cert q_r)) [q_e3; q_e4] /\ not_the_owner toy x_cfg z_id (public_key (rq_cert q_r')) [q_e3; q_e4].
Proof.
  assert (W : not_the_owner toy x_cfg z_id (public_key (rq_cert w_pending)) [q_e3; q_e4]).
  { intros st i x [<-|[<-|[]]] HD N; apply ev_handles in HD; cbn [h_ev q_e3 q_e4 ev_interest] in HD; [|discriminate HD]. injection HD as <- <-. exact u_forged_unsigned. }
  split; [replace (public_key (rq_cert q_r)) with (public_key (rq_cert w_pending)) by (vm_compute; reflexivity)|replace (public_key (rq_cert q_r')) with (public_key (rq_cert w_pending)) by (vm_compute; reflexivity)]; exact W.
Qed.
Lemma q_reply_db : length (puts (snd q_ca3)) = 1%nat /\ names_request x_cfg z_id u_forged.
Proof. split; [reflexivity|]. exists 8. eexists. split; [vm_compute; reflexivity|reflexivity]. Qed.
