(** Concrete cases for C124: two guesses with the same wrong code. *)
From Verif Require Export CacheFacts KeychainWitness CaWitness.
From Verif Require Import RevokeWitness.
Local Open Scope N_scope.

Definition ch_guess : rq_call := QChallenge (x_rin x_now 5) [(bs "code", bs "000000")].
Definition ch_head : list rq_call := kc_calls ++ [QChallenge (x_rin x_now 3) []; QChallengeReply (x_rin x_now 4) (the_put (snd x_ca2)); QSelect CH_PIN].
Definition ch_tail : list rq_call := [QSelect CH_PIN].
Definition ch_all : list rq_call := ch_head ++ ch_guess :: ch_tail ++ [ch_guess].
Definition ch_run := Eval vm_compute in calls x_req0 ch_all.
Lemma ch_run_eq : calls x_req0 ch_all = ch_run.
Proof. vm_compute. reflexivity. Qed.
Definition the_made (e : rq_call * rq_out) : interest := match snd e with OChallenge (Ok x) => x | _ => Interest [] None None end.
Definition ch_x : interest := Eval vm_compute in the_made (nth 8 (fst ch_run) (QFetch, OReply Exn)).
Definition ch_y : interest := Eval vm_compute in the_made (nth 10 (fst ch_run) (QFetch, OReply Exn)).
Definition ch_a := Eval vm_compute in firstn 8 (fst ch_run).
Definition ch_b := Eval vm_compute in firstn 1 (skipn 9 (fst ch_run)).
Lemma ch_performs : performs toy kc_pib (request_init x_profile RT_NEW (rs_ecdh x_req0) (rs_id x_req0)) (ch_a ++ (ch_guess, OChallenge (Ok ch_x)) :: ch_b ++ (ch_guess, OChallenge (Ok ch_y)) :: []) (snd ch_run).
Proof.
  replace (request_init x_profile RT_NEW (rs_ecdh x_req0) (rs_id x_req0)) with x_req0 by (vm_compute; reflexivity).
  replace (ch_a ++ (ch_guess, OChallenge (Ok ch_x)) :: ch_b ++ (ch_guess, OChallenge (Ok ch_y)) :: []) with (fst ch_run) by (vm_compute; reflexivity). rewrite <- ch_run_eq. apply calls_performs.
Qed.
Lemma ch_packets : in_packet ch_x /\ in_packet ch_y.
Proof. split; (eexists; split; [reflexivity|vm_compute; discriminate]). Qed.
Lemma differ : forall E x y p q, i_params x = Some p -> i_params y = Some q -> o_sha256 E (enc_tlv (Tlv T_AppParams p)) <> o_sha256 E (enc_tlv (Tlv T_AppParams q)) -> no_collision E x y.
Proof. intros E x y p q X Y N a b (p' & P & ->) (q' & Q & ->) H. rewrite X in P. injection P as <-. rewrite Y in Q. injection Q as <-. destruct (N H). Qed.
Lemma ch_collide : no_collision toy ch_x ch_y.
Proof. eapply differ; [reflexivity|reflexivity|]. vm_compute. discriminate. Qed.
Definition ch_ca := Eval vm_compute in x_go (fst x_ca2) (x_inputs (x_now + sec 20) 3) ch_x.
Lemma ch_case : aes_laws toy /\ performs toy kc_pib (request_init x_profile RT_NEW (rs_ecdh x_req0) (rs_id x_req0)) (ch_a ++ (ch_guess, OChallenge (Ok ch_x)) :: ch_b ++ (ch_guess, OChallenge (Ok ch_y)) :: []) (snd ch_run) /\
  in_packet ch_x /\ in_packet ch_y /\ no_collision toy ch_x ch_y /\ ca_at toy x_cfg (db_ops toy) (fst x_ca2) /\ addressed x_cfg VChallenge (i_name ch_x) /\
  exists es d, on_interest toy x_cfg (db_ops toy) (fst x_ca2) (x_inputs (x_now + sec 20) 3) ch_x = (es, Ok tt) /\ In d (puts es).
Proof.
  split; [exact (laws_aes toy toy_laws)|]. split; [exact ch_performs|]. split; [apply ch_packets|]. split; [apply ch_packets|]. split; [exact ch_collide|]. split; [exact x_at2|].
  split; [eexists; vm_compute; reflexivity|]. exists (snd ch_ca), (the_put (snd ch_ca)). split; [vm_compute; reflexivity|vm_compute; left; reflexivity].
Qed.
(** A retransmission of the same Interest is answered by the reply. *)
Lemma ch_own : digest_last toy ch_x /\ in_packet ch_x /\ no_collision toy ch_x ch_x /\ satisfies (the_put (snd ch_ca)) ch_x.
Proof.
  split; [apply (made_last toy kc_pib (snd (calls x_req0 ch_head)) ch_guess (OChallenge (Ok ch_x)) (snd (call_req toy kc_pib (snd (calls x_req0 ch_head)) ch_guess))); [vm_compute; reflexivity|right; right; reflexivity]|].
  split; [apply ch_packets|]. split; [|vm_compute; reflexivity]. intros a b (p & P & ->) (q & Q & ->) _. rewrite P in Q. injection Q as <-. reflexivity.
Qed.
(** Two requests for the same key. *)
Definition ch_req : rstate := request_init x_profile RT_NEW (bs "another key") (rs_id x_req0).
Definition ch_n1 : interest := Eval vm_compute in match fst (gen_new_from toy kc_pib x_req0 (x_rin x_now 1) x_keyname x_now (x_now + sec 3600)) with Ok (Some x) => x | _ => ch_x end.
Definition ch_n2 : interest := Eval vm_compute in match fst (gen_new_from toy kc_pib ch_req (x_rin x_now 1) x_keyname x_now (x_now + sec 3600)) with Ok (Some x) => x | _ => ch_x end.
Lemma ch_new : (exists s s', gen_new_from toy kc_pib x_req0 (x_rin x_now 1) x_keyname x_now (x_now + sec 3600) = (Ok (Some ch_n1), s) /\
    gen_new_from toy kc_pib ch_req (x_rin x_now 1) x_keyname x_now (x_now + sec 3600) = (Ok (Some ch_n2), s')) /\
  in_packet ch_n1 /\ in_packet ch_n2 /\ no_collision toy ch_n1 ch_n2 /\ o_ecdh_pub toy (rs_ecdh x_req0) <> o_ecdh_pub toy (rs_ecdh ch_req).
Proof.
  split; [exists x_req1, (snd (gen_new_from toy kc_pib ch_req (x_rin x_now 1) x_keyname x_now (x_now + sec 3600))); split; vm_compute; reflexivity|].
  split; [eexists; split; [reflexivity|vm_compute; discriminate]|]. split; [eexists; split; [reflexivity|vm_compute; discriminate]|]. split; [|vm_compute; discriminate]. eapply differ; [reflexivity|reflexivity|]. vm_compute. discriminate.
Qed.
Definition ch_rv : rstate := request_init x_profile RT_REVOKE (bs "another key") (rs_id x_req0).
Definition ch_r2 : interest := Eval vm_compute in match gen_revoke toy ch_rv w_cert with Some x => x | None => ch_x end.
Lemma ch_revoke : gen_revoke toy rv_req0 w_cert = Some rv_x0 /\ gen_revoke toy ch_rv w_cert = Some ch_r2 /\
  in_packet rv_x0 /\ in_packet ch_r2 /\ no_collision toy rv_x0 ch_r2 /\ o_ecdh_pub toy (rs_ecdh rv_req0) <> o_ecdh_pub toy (rs_ecdh ch_rv).
Proof.
  split; [vm_compute; reflexivity|]. split; [vm_compute; reflexivity|].
  split; [eexists; split; [reflexivity|vm_compute; discriminate]|]. split; [eexists; split; [reflexivity|vm_compute; discriminate]|]. split; [|vm_compute; discriminate]. eapply differ; [reflexivity|reflexivity|]. vm_compute. discriminate.
Qed.
Lemma ch_makes : exists s', call_req toy kc_pib x_req0 kc_new = (ONew (Ok (Some ch_n1)), s') /\ makes (kc_new, ONew (Ok (Some ch_n1))) ch_n1.
Proof. exists x_req1. split; [vm_compute; reflexivity|left; reflexivity]. Qed.
