(** Concrete cases for PROBE from end to end and for fetching a certificate. *)
From Verif Require Export EndToEndFacts SessionWitness PolicyWitness TraceCounts.
Local Open Scope N_scope.

Lemma e_probe : p_prefix (cfp y_cfg) = x_prefix /\ p_prefix x_profile = p_prefix (cfp y_cfg) /\ p_cert x_profile = Some x_ca_cert /\ public_key x_ca_cert = o_pub toy (cf_sk y_cfg) /\
  mm_sorted y_params /\ Forall (fun kv => fits (fst kv) /\ fits (snd kv)) y_params.
Proof. do 4 (split; [reflexivity|]). split; [apply mm_of_is_sorted|]. meets. Qed.
Lemma e_history : exists tr ca s, ca_history toy x_cfg (db_ops toy) tr ca /\
  session toy x_cfg (db_ops toy) (bs "pin") 3600 v_id x_sk x_creq (Some (x_code, 1%nat, x_now + sec 20)%Z) ca s.
Proof.
  destruct v_pin as (ca & s & SE). destruct (session_linked toy x_cfg db (db_ops toy) _ _ _ _ _ _ ca s toy_laws v_fits (fun _ => life_pin) SE) as [LK _].
  destruct (history_of _ _ _ _ _ (lk_at _ _ _ _ _ _ _ LK)) as (tr & H). eauto.
Qed.
