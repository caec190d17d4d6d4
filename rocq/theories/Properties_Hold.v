(** C126: a stranger and the revocation of a certificate.  Vocabulary in Spec_Hold.v. *)
From Verif Require Import HoldWitness.
Local Open Scope N_scope.

(** ** C126 Nobody else can keep the holder of a certificate from revoking it *)
(** Anybody can, with one unsigned Interest and the certificate, which is public: the CA takes the request in, and from then on, until it is
    restarted or somebody proves the certificate's key for that request, it answers the holder's REVOKE Interest with an error.  The stranger
    cannot go on and need not. *)
Theorem C126_refuted : forall E g S (ops : store_ops S) s c ecdh i, env_laws E -> suffix_limit_sane g -> ca_at E g ops s -> revocable E g i c ->
  let id := id_for E (ca_idkey s) (c_name c) in pending ops s id = None ->
  let x := strangers_revoke E g ecdh c in i_sig x = None /\
  exists s1 es, step E g ops s (EvInterest i x) = Some (s1, es) /\
    forall s2 i2 s0 sk, undisturbed E g ops id (public_key c) s1 s2 -> revocable E g i2 c -> prepared E g s0 c sk ->
      exists y d, gen_revoke E s0 c = Some y /\ step E g ops s2 (EvInterest i2 y) = Some (s2, [EPut d]) /\
        told_error E g y 4 (bs "Duplicate Request ID: The same request has been seen before.") d /\ forall rj, on_new_response E s0 rj d = (Exn, s0).
Proof. exact stranger_holds. Qed.
Print Assumptions C126_refuted.
(** The certificate was issued by this CA; after the stranger's Interest the CA makes a profile packet. *)
Example C126_refuted_case : env_laws toy /\ suffix_limit_sane w_cfg /\ ca_at toy w_cfg mem_ops v_ca0 /\ revocable toy w_cfg (x_inputs (x_now + sec 40) 5) w_cert /\
  id_for toy (ca_idkey v_ca0) (c_name w_cert) = rv_id /\ pending mem_ops v_ca0 rv_id = None /\
  step toy w_cfg mem_ops v_ca0 (EvInterest (x_inputs (x_now + sec 40) 5) (strangers_revoke toy w_cfg (bs "mallory ephemeral") w_cert)) = Some ho_ca1 /\
  undisturbed toy w_cfg mem_ops rv_id (public_key w_cert) (fst ho_ca1) (fst ho_ca2) /\ revocable toy w_cfg (x_inputs (x_now + sec 60) 7) w_cert /\ prepared toy w_cfg rv_req1 w_cert x_sk.
Proof.
  split; [exact toy_laws|]. split; [exact v_sane|]. split; [exact v_at0|]. split; [exact rv_revocable|]. split; [vm_compute; reflexivity|]. split; [exact rv_new|]. split; [exact ho_step1|].
  split; [exact ho_undisturbed|]. split; [exact ho_later|exact rv_prepared].
Qed.

(** With a key of their own the stranger can hold it for good: a NEW Interest under the certificate's very name takes the same ID.  Then the holder's
    signature does not count for the request, and nothing but a restart or the stranger themselves frees it. *)
Theorem C126_own_key_refuted : forall E g S (ops : store_ops S) s c i x peer c', env_laws E -> suffix_limit_sane g -> ca_at E g ops s ->
  let id := id_for E (ca_idkey s) (c_name c) in pending ops s id = None -> addressed g VNew (i_name x) -> admissible E g i RT_NEW id x peer c' -> c_name c' = c_name c ->
  exists s1 es, step E g ops s (EvInterest i x) = Some (s1, es) /\
    forall s2 i2 s0 sk, undisturbed E g ops id (public_key c') s1 s2 -> revocable E g i2 c -> prepared E g s0 c sk ->
      (exists y d, gen_revoke E s0 c = Some y /\ step E g ops s2 (EvInterest i2 y) = Some (s2, [EPut d]) /\
        told_error E g y 4 (bs "Duplicate Request ID: The same request has been seen before.") d /\ forall rj, on_new_response E s0 rj d = (Exn, s0)) /\
      forall i3 y, names_request g id y -> ~ signed_by E y (public_key c') ->
        exists d, step E g ops s2 (EvInterest i3 y) = Some (s2, [EPut d]) /\ error_reply E g y (3 (* bad signature *)) d.
Proof. exact squatter_holds. Qed.
Print Assumptions C126_own_key_refuted.
(** In between the certificate's holder sends a CHALLENGE Interest for the request. *)
Example C126_own_key_case : suffix_limit_sane w_cfg /\ ca_at toy w_cfg mem_ops v_ca0 /\ id_for toy (ca_idkey v_ca0) (c_name w_cert) = rv_id /\ pending mem_ops v_ca0 rv_id = None /\
  addressed w_cfg VNew (i_name hs_x) /\ admissible toy w_cfg (x_inputs (x_now + sec 40) 5) RT_NEW rv_id hs_x hs_peer hs_cert /\ c_name hs_cert = c_name w_cert /\ public_key hs_cert <> public_key w_cert /\
  step toy w_cfg mem_ops v_ca0 (EvInterest (x_inputs (x_now + sec 40) 5) hs_x) = Some hs_ca1 /\ undisturbed toy w_cfg mem_ops rv_id (public_key hs_cert) (fst hs_ca1) (fst hs_ca1) /\
  revocable toy w_cfg (x_inputs (x_now + sec 60) 7) w_cert /\ prepared toy w_cfg rv_req1 w_cert x_sk /\ names_request w_cfg rv_id hs_y /\ ~ signed_by toy hs_y (public_key hs_cert).
Proof.
  split; [exact v_sane|]. split; [exact v_at0|]. split; [vm_compute; reflexivity|]. split; [exact rv_new|]. split; [exact hs_addressed|]. split; [exact hs_admissible|]. split; [reflexivity|].
  split; [discriminate|]. split; [exact hs_step|]. split; [exact hs_undisturbed|]. split; [exact ho_later|]. split; [exact rv_prepared|]. split; [exact hs_names|exact hs_not_signed].
Qed.

(** A pending request under the certificate's name is the only obstacle. *)
Theorem C126_exact_partial : forall E g S (ops : store_ops S) s s0 rj i c sk, env_laws E -> config_fits g -> ca_at E g ops s -> revocable E g i c -> prepared E g s0 c sk -> length (ri_salt0 rj) = 32%nat ->
  (exists ca es s', revoking E g ops s s0 rj i c = Some (ca, es, s', p_challenges (cfp g))) <-> pending ops s (id_for E (ca_idkey s) (c_name c)) = None.
Proof. exact holder_opens_iff. Qed.
Print Assumptions C126_exact_partial.
(** A holder who has seen the request's ID can clear it away, with a CHALLENGE Interest that has nothing in it but their signature. *)
Theorem C126_clears_partial : forall E g S (ops : store_ops S) s s0 rj i i2 c sk r, env_laws E -> config_fits g -> ca_at E g ops s ->
  let id := id_for E (ca_idkey s) (c_name c) in pending ops s id = Some r -> public_key (rq_cert r) = o_pub E sk ->
  revocable E g i2 c -> prepared E g s0 c sk -> length (ri_salt0 rj) = 32%nat ->
  exists s1 d ca es s', step E g ops s (EvInterest i (empty_challenge E g id sk)) = Some (s1, [EDelete id; EPut d]) /\
    revoking E g ops s1 s0 rj i2 c = Some (ca, es, s', p_challenges (cfp g)).
Proof. exact holder_clears. Qed.
Print Assumptions C126_clears_partial.
Example C126_case : env_laws toy /\ config_fits w_cfg /\ ca_at toy w_cfg mem_ops (fst ho_ca2) /\ id_for toy (ca_idkey (fst ho_ca2)) (c_name w_cert) = rv_id /\
  (exists r, pending mem_ops (fst ho_ca2) rv_id = Some r /\ public_key (rq_cert r) = o_pub toy x_sk /\ rq_cert r = w_cert) /\
  revocable toy w_cfg (x_inputs (x_now + sec 60) 7) w_cert /\ prepared toy w_cfg rv_req1 w_cert x_sk /\ length (ri_salt0 (x_rin x_now 2)) = 32%nat.
Proof.
  split; [exact toy_laws|]. split; [exact rv_fits|]. split; [exact ho_at2|]. split; [vm_compute; reflexivity|]. split; [exact ho_pending|]. split; [exact ho_later|]. split; [exact rv_prepared|reflexivity].
Qed.
(** With the database, a restart gives the certificate another ID, and the holder can ask again. *)
Theorem C126_restart_partial : forall E g S (ops : store_ops S) s key s0 rj i c sk, env_laws E -> config_fits g -> ca_at E g ops s -> durable E S ops -> pending ops s (id_for E key (c_name c)) = None ->
  revocable E g i c -> prepared E g s0 c sk -> length (ri_salt0 rj) = 32%nat ->
  exists ca es s', revoking E g ops (restart ops key s) s0 rj i c = Some (ca, es, s', p_challenges (cfp g)).
Proof. exact holder_restart. Qed.
Print Assumptions C126_restart_partial.
Example C126_restart_case : env_laws toy /\ config_fits rk_cfg /\ ca_at toy rk_cfg (db_ops toy) (fst hd_ca1) /\ durable toy db (db_ops toy) /\
  pending (db_ops toy) (fst hd_ca1) (id_for toy (ca_idkey (fst hd_ca1)) (c_name rc_issued)) <> None /\
  pending (db_ops toy) (fst hd_ca1) (id_for toy (bs "fourth id key") (c_name rc_issued)) = None /\
  revocable toy rk_cfg rk_i rc_issued /\ prepared toy rk_cfg rk_req rc_issued x_sk /\ length (ri_salt0 (x_rin x_now 2)) = 32%nat.
Proof.
  split; [exact toy_laws|]. split; [exact rk_fits|]. split; [exact hd_at|]. split; [constructor|]. split; [exact hd_held|]. split; [exact hd_free|]. split; [exact rk_revocable|]. split; [exact rk_prepared|reflexivity].
Qed.
