(** A server with packets that fit. *)
From Verif Require Export FaceFacts TraceWitness ProcessWitness.
From Coq Require Import Lia.
Local Open Scope N_scope.

Lemma fa_s0 : fstep toy h_cfg (db_ops toy) false o_0 o_v0 = Some o_1. Proof. vm_compute. reflexivity. Qed.
Lemma fa_s1 : fstep toy h_cfg (db_ops toy) false (fst o_1) o_v1 = Some o_2. Proof. vm_compute. reflexivity. Qed.
Definition fa_tr : list (sstep db) := [SStep o_0 o_v0 (snd o_1) (fst o_1); SStep (fst o_1) o_v1 (snd o_2) (fst o_2)].
Definition fa_ca : ca_state db := Eval vm_compute in run_ca (fst o_2).
Lemma fa_runs : face_history toy h_cfg (db_ops toy) false fa_tr (Running fa_ca o_d []).
Proof. constructor; [meets|meets|constructor|]. apply (fsteps_cons _ _ _ _ _ _ _ _ _ _ fa_s0). apply (fsteps_cons _ _ _ _ _ _ _ _ _ _ fa_s1). constructor. Qed.
Definition fa_r : request := Eval vm_compute in match pending (db_ops toy) fa_ca z_id with Some r => r | None => x_r2 end.
Lemma fa_pending : forall id r, pending (db_ops toy) fa_ca id = Some r -> r = fa_r.
Proof.
  intros id r P. unfold pending in P. cbn [db_ops s_get] in P. unfold db_get in P.
  destruct (db_row (ca_store fa_ca) id) as [w|] eqn:W; [|discriminate]. unfold db_row in W. apply find_some in W as [W _].
  destruct W as [<-|[]]. vm_compute in P. injection P as <-. reflexivity.
Qed.
Lemma fa_sign : forall m, blen (o_sign toy (cf_sk h_cfg) m) <= 32.
Proof. intros m. cbn [toy o_sign]. unfold toy_sign, toy_hash. destruct (sums _ _ _) as [a c]. unfold blen. rewrite firstn_length. lia. Qed.
Lemma fa_case : face_history toy h_cfg (db_ops toy) false fa_tr (Running fa_ca o_d []) /\ (forall k, p_maxsuffix (cfp h_cfg) = Some k -> k < 2 ^ 64) /\ short_names h_cfg (db_ops toy) fa_ca /\ suffix_limit_sane h_cfg /\
  (addressed h_cfg VProbe (i_name (the_interest x_chal1)) -> probe_room toy h_cfg (x_inputs (x_now + sec 10) 2) (the_interest x_chal1) 200) /\ room_needed toy h_cfg (asked_for (db_ops toy) fa_ca) 200 /\ (forall m, blen (o_sign toy (cf_sk h_cfg) m) <= 32) /\
  blen (name_wire (i_name (the_interest x_chal1))) + 2 * 200 + blen (name_wire (cf_keyloc h_cfg)) + 32 + 800 <= packet_limit /\ data_fits h_cfg o_d /\
  (exists p os, pstep toy h_cfg (db_ops toy) false (Running fa_ca o_d []) o_v2 = Some (p, os) /\ Forall (fun d => fits (d_content d)) (module_packets os)) /\ blen (enc_tlvs (p_prefix (cfp h_cfg))) <= 8000.
Proof.
  split; [exact fa_runs|]. split; [intros k Q; injection Q as <-; vm_compute; reflexivity|]. split; [split; [vm_compute; reflexivity|intros id r P; rewrite (fa_pending id r P); vm_compute; reflexivity]|].
  split; [intros k Q; injection Q as <-; vm_compute; reflexivity|]. split; [intros (rest & Q); exfalso; vm_compute in Q; discriminate Q|].
  split; [split; [intros sk; change (blen (o_ecdh_pub toy sk)) with 9; vm_compute; discriminate|split; [vm_compute; discriminate|intros c (id & r & P & ->); rewrite (fa_pending id r P); vm_compute; discriminate]]|].
  split; [exact fa_sign|]. split; [vm_compute; discriminate|]. split; [vm_compute; discriminate|]. split; [|vm_compute; discriminate].
  exists (fst o_3), (snd o_3). split; [exact o_s2|]. repeat constructor.
Qed.
