(** A server whose repo is out of reach when it issues a certificate. *)
From Verif Require Export RepoFacts TraceWitness ProcessWitness.
Local Open Scope N_scope.

Definition r_1 := Eval vm_compute in o_step true o_0 o_v0.
Definition r_2 := Eval vm_compute in o_step true (fst r_1) o_v1.
Definition r_3 := Eval vm_compute in o_step true (fst r_2) o_v2.
Definition r_4 := Eval vm_compute in o_step true (fst r_3) o_v3.
Lemma r_s0 : pstep toy h_cfg (db_ops toy) true o_0 o_v0 = Some r_1. Proof. vm_compute. reflexivity. Qed.
Lemma r_s1 : pstep toy h_cfg (db_ops toy) true (fst r_1) o_v1 = Some r_2. Proof. vm_compute. reflexivity. Qed.
Lemma r_s2 : pstep toy h_cfg (db_ops toy) true (fst r_2) o_v2 = Some r_3. Proof. vm_compute. reflexivity. Qed.
Lemma r_s3 : pstep toy h_cfg (db_ops toy) true (fst r_3) o_v3 = Some r_4. Proof. vm_compute. reflexivity. Qed.
Definition r_tr0 : list (sstep db) := [SStep o_0 o_v0 (snd r_1) (fst r_1); SStep (fst r_1) o_v1 (snd r_2) (fst r_2); SStep (fst r_2) o_v2 (snd r_3) (fst r_3)].
Definition r_last : sstep db := SStep (fst r_3) o_v3 (snd r_4) (fst r_4).
Definition r_tr : list (sstep db) := r_tr0 ++ [r_last].
Definition r_ca : ca_state db := Eval vm_compute in run_ca (fst r_4).
Definition r_d : data := Eval vm_compute in run_profile (fst r_4).
Definition r_c : cert := Eval vm_compute in match published (snd r_4) with c :: _ => c | [] => x_ca_cert end.
Definition r_m : data := Eval vm_compute in the_module (snd r_4).
Lemma r_runs : server_history toy h_cfg (db_ops toy) true r_tr (Running r_ca r_d []).
Proof.
  constructor; [meets|meets|constructor|]. apply (psteps_cons _ _ _ _ _ _ _ _ _ _ r_s0). apply (psteps_cons _ _ _ _ _ _ _ _ _ _ r_s1). apply (psteps_cons _ _ _ _ _ _ _ _ _ _ r_s2). apply (psteps_cons _ _ _ _ _ _ _ _ _ _ r_s3). constructor.
Qed.
Lemma r_outs : p_outs r_last = [OModule r_m; ORepoCert r_c].
Proof. vm_compute. reflexivity. Qed.
Lemma r_again : forall st', In st' (r_tr0 ++ []) -> ~ In (ORepoCert r_c) (p_outs st').
Proof. intros st' [<-|[<-|[<-|[]]]] I; vm_compute in I; repeat (destruct I as [I|I]; [discriminate I|]); exact I. Qed.
Definition r_req : rstate := Eval vm_compute in ok_state (on_challenge_response toy (snd o_chal) (x_rin x_now 6) r_m) x_req1.
Lemma r_told : on_challenge_response toy (snd o_chal) (x_rin x_now 6) r_m = (Ok tt, r_req) /\ rs_status r_req = ST_SUCCESS /\ rs_issued r_req = c_name r_c.
Proof. vm_compute. auto. Qed.
Lemma r_lost : exists tr ca d c m ups s s', server_history toy h_cfg (db_ops toy) true tr (Running ca d []) /\ length ups = length tr /\
  (exists a st, tr = a ++ [st] /\ p_outs st = [OModule m; ORepoCert c]) /\
  on_challenge_response toy s (x_rin x_now 6) m = (Ok tt, s') /\ rs_status s' = ST_SUCCESS /\ rs_issued s' = c_name c /\
  ~ in_repo tr ups (ORepoCert c) /\ forall i, pstep toy h_cfg (db_ops toy) true (Running ca d []) (PvInterest i (fst (gen_cert_fetch s'))) = Some (Running ca d [], []).
Proof.
  exists r_tr, r_ca, r_d, r_c, r_m, [true; true; true; false], (snd o_chal), r_req. split; [exact r_runs|]. split; [reflexivity|]. split; [exists r_tr0, r_last; split; [reflexivity|exact r_outs]|].
  destruct r_told as (A & B & C). do 3 (split; [assumption|]). split; [|intros i; vm_compute; reflexivity].
  refine (proj1 (repo_lost toy h_cfg db (db_ops toy) r_tr0 r_last [] _ r_c [true; true; true] [] r_runs eq_refl _ r_again)). rewrite r_outs. right. left. reflexivity.
Qed.
