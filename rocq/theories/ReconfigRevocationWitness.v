(** Concrete cases for C125. *)
From Coq Require Import Lia.
From Verif Require Import BytesFacts RequesterFacts.
From Verif Require Export ReconfigRevocationFacts ReconfigRevokeWitness.
Local Open Scope N_scope.

Definition rk_id : bytes := Eval vm_compute in id_for toy (ca_idkey rc_s2) (c_name rc_issued).
(** Opened under limits that allow the name of the certificate; now limits are in force that do not. *)
Lemma rvn_open : forall ctype life, exists ca s, revocation_change toy (db_ops toy) ctype life rk_id x_sk rc_issued None rc_cfg ca s.
Proof.
  intros ctype life.
  destruct (revoke_open_change toy db (db_ops toy) ctype life rk_tr rk_cfg rc_s2 rk_req (x_rin x_now 2) rk_i rc_issued x_sk
              toy_laws rk_fits rk_hist rk_revocable rk_prepared rk_new eq_refl) as (ca & es & s & _ & SE).
  change (id_for toy (ca_idkey rc_s2) (c_name rc_issued)) with rk_id in SE. eexists. exists s. eapply rvc_quiet; [exact SE|apply (rs_change rk_cfg rc_cfg); reflexivity|reflexivity].
Qed.
(** The challenge started and a wrong code tried under the second configuration, now back to the first. *)
Lemma rvn_tried : exists ca s, revocation_change toy (db_ops toy) (bs "pin") 3600 rk_id x_sk rc_issued (Some (x_code, 1%nat, x_now + sec 80)%Z) rk_cfg ca s.
Proof.
  destruct (rvn_open (bs "pin") 3600) as (ca & s & SE).
  destruct (revoke_start_change toy db (db_ops toy) (bs "pin") 3600 rk_id x_sk rc_issued rc_cfg _ s (x_rin x_now 3) (x_rin x_now 4) (x_inputs (x_now + sec 70) 2) [] x_code toy_laws life_pin SE bw_pin) as (ca2 & s2 & d & r & es & _ & _ & SE2 & _); try exact v_clock; [meets..|].
  destruct (revoke_wrong_change toy db (db_ops toy) (bs "pin") 3600 rk_id x_sk rc_issued x_code 0 _ rc_cfg _ s2 (x_rin x_now 5) (x_rin x_now 4) (x_inputs (x_now + sec 80) 3) (bs "000000") toy_laws life_pin SE2) as (ca4 & s4 & d4 & r4 & _ & SE4 & _);
    try exact v_clock; [meets..|lia|]. eexists. exists s4. eapply rvc_quiet; [exact SE4|apply (rs_change rc_cfg rk_cfg); reflexivity|reflexivity].
Qed.
(** Nothing signed with the first key verifies under the second. *)
Lemma rvn_other : forall m, o_verify toy (o_pub toy (cf_sk rk_cfg)) m (o_sign toy (cf_sk x_cfg) m) = false.
Proof.
  intros m. change (bytes_eqb (toy_hash 32 (delim x_ca_sk ++ ser_msg m)) (toy_hash 32 (delim rc_sk ++ ser_msg m)) = false). apply bytes_eqb_neq. intros Q. symmetry in Q. revert Q. apply bytes_eqb_neq. exact (rs_other m).
Qed.
