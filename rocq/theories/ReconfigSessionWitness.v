(** Concrete cases for C121. *)
From Coq Require Import Lia.
From Verif Require Import BytesFacts.
From Verif Require Export ReconfigSessionFacts ReconfigWitness SessionWitness.
Local Open Scope N_scope.

(** Narrower limits with the same key: one second of validity, no name below the prefix, the possession challenge only, another
    forwarding hint. *)
Definition rs_cfg : ca_cfg :=
  CaCfg (Config (Profile x_prefix [gc (bs "moved")] (bs "Example CA") [bs "name"] 1 (Some 0) [CH_POSSESSION] (Some x_ca_cert)) [] [])
        (ChalCfg (bs "other.sh") Exn) x_ca_cert x_ca_sk x_keyloc.
Lemma rs_fits : config_fits rs_cfg.
Proof. split; [|meets]. intros k H. injection H as <-. vm_compute. reflexivity. Qed.
Lemma rs_second_fits : config_fits rc_cfg.
Proof. split; [|meets]. intros k H. injection H as <-. vm_compute. reflexivity. Qed.
(** The server is stopped and started again with another configuration. *)
Lemma rs_change : forall g g' id pk ca, p_prefix (cfp g') = p_prefix (cfp g) -> quiet_change toy (db_ops toy) id pk g ca g' (restart (db_ops toy) (bs "new key") ca).
Proof.
  intros g g' id pk ca Q. exists [(g', HStep ca (EvRestart (bs "new key")) [] (restart (db_ops toy) (bs "new key") ca))]. split; [apply csteps_change; [exact Q|constructor]|].
  constructor; [|constructor]. cbn [fst snd h_ev]. split; [|intros _; constructor]. intros i x H. destruct H as [H|[n [key H]]]; discriminate H.
Qed.
Lemma rs_start0 : reconfigured toy (db_ops toy) [] x_cfg x_ca0.
Proof. constructor; [meets|meets|constructor|]. exists x_cfg, (bs "id key"). exact (csteps_nil toy (db_ops toy) x_cfg x_ca0). Qed.
Lemma rs_open : forall ctype life, exists ca s, session_change toy (db_ops toy) ctype life SessionWitness.v_id x_sk x_creq None rs_cfg ca s.
Proof.
  intros ctype life. rewrite <- v_creq.
  destruct (open_change toy db (db_ops toy) ctype life [] x_cfg x_ca0 x_req0 (x_rin x_now 1) (x_rin x_now 2) (x_inputs x_now 1) x_keyname x_sk x_now (x_now + sec 3600)
              toy_laws v_fits rs_start0 v_applies) as (ca & es & s & _ & SE); [rewrite v_creq; exact v_new|reflexivity|].
  rewrite v_creq in SE |- *. change (id_for toy (ca_idkey x_ca0) (c_name x_creq)) with SessionWitness.v_id in SE. eexists. exists s. eapply sc_quiet; [exact SE|apply (rs_change x_cfg rs_cfg); reflexivity|reflexivity].
Qed.
(** Accepted under the first configuration, the challenge started and a wrong code tried under the second, now back to the first. *)
Lemma rs_tried : exists ca s, session_change toy (db_ops toy) (bs "pin") 3600 SessionWitness.v_id x_sk x_creq (Some (x_code, 1%nat, x_now + sec 20)%Z) x_cfg ca s.
Proof.
  destruct (rs_open (bs "pin") 3600) as (ca & s & SE).
  destruct (start_change toy db (db_ops toy) (bs "pin") 3600 SessionWitness.v_id x_sk x_creq rs_cfg _ s (x_rin x_now 3) (x_rin x_now 4) (x_inputs (x_now + sec 10) 2) [] x_code toy_laws life_pin SE bw_pin) as (ca2 & s2 & d & r & es & _ & _ & SE2 & _); try exact v_clock; [meets..|].
  destruct (wrong_change toy db (db_ops toy) (bs "pin") 3600 SessionWitness.v_id x_sk x_creq x_code 0 _ rs_cfg _ s2 (x_rin x_now 5) (x_rin x_now 4) (x_inputs (x_now + sec 20) 3) (bs "000000") toy_laws life_pin SE2) as (ca4 & s4 & d4 & r4 & _ & SE4 & _);
    try exact v_clock; [meets..|lia|]. eexists. exists s4. eapply sc_quiet; [exact SE4|apply (rs_change rs_cfg x_cfg); reflexivity|reflexivity].
Qed.
(** Nothing signed with the second key verifies under the first. *)
Lemma sums_app : forall b a c d, fst (sums a c (b ++ d)) = fst (sums a c b) + fst (sums 0 0 d).
Proof.
  assert (G : forall d a c a0 c0, fst (sums (a0 + a) c d) = a0 + fst (sums a c0 d)).
  { induction d as [|x d IH]; intros a c a0 c0; cbn [sums fst]; [reflexivity|]. replace (a0 + a + Byte.to_N x + 1) with (a0 + (a + Byte.to_N x + 1)) by lia. apply IH. }
  induction b as [|x b IH]; intros a c d; cbn [app sums]; [|apply IH]. cbn [fst]. rewrite <- (N.add_0_r a) at 1. rewrite (G d 0 c a 0). reflexivity.
Qed.
Lemma hash_differs : forall b b', (fst (sums 7 0 b)) mod 256 ^ 4 <> (fst (sums 7 0 b')) mod 256 ^ 4 -> toy_hash 32 b <> toy_hash 32 b'.
Proof.
  intros b b' N. unfold toy_hash. destruct (sums 7 0 b) as [a c]. destruct (sums 7 0 b') as [a' c']. cbn [fst] in N. intros Q. apply N.
  apply (f_equal (fun l => firstn 4 (skipn 4 l))) in Q.
  assert (F : forall a c, firstn 4 (skipn 4 (firstn 32 (be_enc 4 c ++ be_enc 4 a ++ repeat x5a 32))) = be_enc 4 a).
  { clear. intros a c. remember (be_enc 4 c) as p eqn:P. remember (be_enc 4 a) as q eqn:QQ. pose proof (be_enc_length 4 c) as L1. pose proof (be_enc_length 4 a) as L2. rewrite <- P in L1. rewrite <- QQ in L2.
    destruct p as [|? [|? [|? [|? [|]]]]]; try discriminate L1. destruct q as [|? [|? [|? [|? [|]]]]]; try discriminate L2. reflexivity. }
  rewrite !F in Q. apply (f_equal be_dec) in Q. rewrite !be_dec_enc in Q. exact Q.
Qed.
Lemma rs_other : forall m, o_verify toy (o_pub toy (cf_sk x_cfg)) m (o_sign toy (cf_sk rc_cfg) m) = false.
Proof.
  intros m. change (bytes_eqb (toy_hash 32 (delim rc_sk ++ ser_msg m)) (toy_hash 32 (delim x_ca_sk ++ ser_msg m)) = false). apply bytes_eqb_neq, hash_differs. rewrite !sums_app.
  set (z := fst (sums 0 0 (ser_msg m))). 
  let a := eval vm_compute in (fst (sums 7 0 (delim rc_sk))) in change (fst (sums 7 0 (delim rc_sk))) with a.
  let a := eval vm_compute in (fst (sums 7 0 (delim x_ca_sk))) in change (fst (sums 7 0 (delim x_ca_sk))) with a.
  change (256 ^ 4) with 4294967296. clearbody z. clear m. intros Q.
  match type of Q with (?a + _) mod ?m = (?b + _) mod _ => pose proof (N.div_mod (a + z) m ltac:(discriminate)); pose proof (N.div_mod (b + z) m ltac:(discriminate)) end. lia.
Qed.
