(** Concrete cases for C122. *)
From Coq Require Import Lia.
From Verif Require Import RequesterFacts.
From Verif Require Export ReconfigRevokeFacts ReconfigWitness RevokeWitness ReconfigSessionWitness.
Local Open Scope N_scope.

Definition rk_i : inputs := x_inputs (x_now + sec 60) 7.
(** The certificate issued with the second key; the server is started again with that key and the first limits. *)
Definition rk_cfg : ca_cfg :=
  CaCfg (Config (Profile x_prefix [gc (bs "edge")] (bs "Example CA") [] 864000 (Some 2) [bs "pin"] (Some rc_cert)) [] [])
        (ChalCfg (bs "send.sh") (Ok [x_anchor])) rc_cert rc_sk (x_prefix ++ [c_KEY; gc (bs "second")]).
Definition rk_tr : list (ca_cfg * hstep db) := (rc_before ++ [(rc_cfg, rc_e1)]) ++ [(rk_cfg, rc_e2)].
Lemma rk_hist : reconfigured toy (db_ops toy) rk_tr rk_cfg rc_s2.
Proof.
  destruct rc_hist as [LC NF B (g0 & key & H)]. constructor; [exact LC|meets|exact B|]. exists g0, key. apply (csteps_join _ _ _ _ _ _ _ _ _ _ _ H).
  apply (csteps_change toy (db_ops toy) rc_cfg rk_cfg (fst rc_ca1) (bs "fourth id key")); [reflexivity|]. constructor.
Qed.
Lemma rk_issued : issued_under rk_tr rc_cfg rc_issued.
Proof. exists rc_e1. split; [apply in_or_app; left; apply in_or_app; right; left; reflexivity|exact rc_in]. Qed.
Lemma rk_name : forall g, p_prefix (cfp g) = x_prefix -> p_maxsuffix (cfp g) = Some 2 -> name_policy g (c_name rc_issued).
Proof.
  intros g P K. exists [gc (bs "alice")], (gc (bs "k1")). eexists _, _. rewrite P. split; [vm_compute; reflexivity|]. split; [discriminate|]. intros k Q. rewrite K in Q. injection Q as <-. vm_compute. discriminate.
Qed.
Lemma rk_keyloc : wf_name (cf_keyloc rc_cfg).
Proof. repeat first [apply Forall_nil | apply Forall_cons]; (split; [|split]; vm_compute; congruence). Qed.
Lemma rk_within : within (in_t1 rk_i) (c_validity (cf_cert rc_cfg)) /\ within (in_t1 rk_i) (c_validity (cf_cert x_cfg)).
Proof. split; (eexists _, _; split; [vm_compute; reflexivity|]; meets). Qed.
Lemma rk_sizes : fits (enc_tlv (cert_tlv toy rc_issued)) /\ blen (name_wire (c_name rc_issued)) < 2 ^ 31.
Proof. meets. Qed.
Lemma rk_revocable : revocable toy rk_cfg rk_i rc_issued.
Proof.
  exact (issued_still_revocable toy db (db_ops toy) rk_tr rk_cfg rc_s2 rc_cfg rc_issued rk_i toy_laws rk_hist rk_issued eq_refl rk_keyloc (rk_name rk_cfg eq_refl eq_refl) (proj1 rk_within) (proj1 rk_sizes) (proj2 rk_sizes)).
Qed.
Definition rk_profile : profile := cfp rk_cfg.
Definition rk_req : rstate := Eval vm_compute in snd (gen_new toy (request_init rk_profile RT_REVOKE (bs "alice ephemeral") (repeat x00 8)) (x_rin x_now 1) x_keyname x_sk x_now (x_now + sec 3600)).
Lemma rk_prepared : prepared toy rk_cfg rk_req rc_issued x_sk.
Proof.
  split; [|split; [reflexivity|split; [exists rc_cert; split; [reflexivity|vm_compute; reflexivity]|vm_compute; reflexivity]]].
  exists rk_profile, (bs "alice ephemeral"), (repeat x00 8), (x_rin x_now 1), x_keyname, x_now, (x_now + sec 3600)%Z. eexists. split; [reflexivity|]. vm_compute. reflexivity.
Qed.
Lemma rk_new : pending (db_ops toy) rc_s2 (id_for toy (ca_idkey rc_s2) (c_name rc_issued)) = None.
Proof. vm_compute. reflexivity. Qed.
Lemma rk_fits : config_fits rk_cfg.
Proof. split; [|meets]. intros k H. injection H as <-. vm_compute. reflexivity. Qed.
(** The REVOKE Interest for it. *)
Definition rk_peer : bytes := Eval vm_compute in o_ecdh_pub toy (bs "alice ephemeral").
Definition rk_x : interest := unsigned_interest toy (x_prefix ++ [r_CA; gc (bs "REVOKE")]) (req_encode toy RT_REVOKE rk_peer rc_issued).
Lemma rk_addressed : addressed x_cfg VRevoke (i_name rk_x) /\ addressed rc_cfg VRevoke (i_name rk_x).
Proof. split; (unfold rk_x, unsigned_interest; cbn [i_name]; eexists; rewrite <- app_assoc; reflexivity). Qed.
Lemma rk_readable : readable toy x_cfg rk_i RT_REVOKE rk_x rk_peer rc_issued /\ readable toy rc_cfg rk_i RT_REVOKE rk_x rk_peer rc_issued.
Proof.
  assert (C : carries toy RT_REVOKE rk_x rk_peer rc_issued).
  { destruct (rv_wf _ _ _ _ rk_revocable) as (W1 & W2 & W3 & _). apply carries_encoded; [meets|right; reflexivity|meets|exact W1|exact W2|exact W3|reflexivity]. }
  split; (split; [first [exact (proj2 rk_within)|exact (proj1 rk_within)]|]; split; [exact C|]; split; [discriminate|vm_compute; discriminate]).
Qed.
Lemma rk_foreign : ~ cert_signed_by toy rc_issued (public_key (cf_cert x_cfg)).
Proof. unfold cert_signed_by. intros Q. vm_compute in Q. discriminate Q. Qed.
Lemma rk_usable : usable toy x_cfg rk_i RT_REVOKE rk_x rk_peer rc_issued.
Proof. destruct rk_readable as [(A & B & C & D) _]. repeat (split; [assumption|]). apply rk_name; reflexivity. Qed.
Lemma rk_outside : ~ name_policy rc_cfg (c_name rc_issued).
Proof. intros (suffix & kid & issuer & version & _ & NE & LIM). specialize (LIM 0 eq_refl). destruct suffix; [apply NE; reflexivity|]. cbn [length] in LIM. lia. Qed.
Lemma rk_issued3 : issued_under (rc_before ++ (rc_cfg, rc_e1) :: [(x_cfg, rc_e2)] ++ (x_cfg, rc_e3) :: []) rc_cfg rc_issued.
Proof. exists rc_e1. split; [apply in_or_app; right; left; reflexivity|exact rc_in]. Qed.
Lemma rk_issued1 : issued_under (rc_before ++ [(rc_cfg, rc_e1)]) rc_cfg rc_issued.
Proof. exists rc_e1. split; [apply in_or_app; right; left; reflexivity|exact rc_in]. Qed.
Lemma rk_sane : suffix_limit_sane rc_cfg /\ suffix_limit_sane x_cfg.
Proof. split; (intros k H; injection H as <-; vm_compute; reflexivity). Qed.
