(** C128: a certificate request that somebody else makes first.  Vocabulary in Spec_Forestall.v and Spec_Hold.v. *)
From Verif Require Import ForestallWitness.
Local Open Scope N_scope.

(** ** C128 Nobody else can keep a requester's NEW Interest from being accepted *)
(** Whoever knows the name that the certificate request is going to have can: they ask for a certificate under that name with a key of their own.
    The CA takes the request in, and from then on, until it is restarted or that key signs a CHALLENGE for the request, it answers the NEW Interest
    of everybody else for that name with an error, and the signature of no other key counts for the request. *)
Theorem C128_refuted : forall E g S (ops : store_ops S) s i s1 ri1 kn sk1 nb1 na1, env_laws E -> suffix_limit_sane g -> ca_at E g ops s -> applies E g s1 ri1 i kn sk1 nb1 na1 ->
  let id := id_for E (ca_idkey s) (c_name (cert_request E sk1 ri1 kn nb1 na1)) in pending ops s id = None ->
  exists x s1' ca es, asks_new E s1 ri1 kn sk1 nb1 na1 x s1' /\ step E g ops s (EvInterest i x) = Some (ca, es) /\
    forall ca', undisturbed E g ops id (o_pub E sk1) ca ca' ->
      (forall i2 s0 ri sk nb na, applies E g s0 ri i2 kn sk nb na -> ri_version ri = ri_version ri1 -> turned_down E g ops ca' s0 ri i2 kn sk nb na) /\
      forall i3 y, names_request g id y -> ~ signed_by E y (o_pub E sk1) -> exists d, step E g ops ca' (EvInterest i3 y) = Some (ca', [EPut d]) /\ error_reply E g y (3 (* bad signature *)) d.
Proof. exact forestalled. Qed.
Print Assumptions C128_refuted.
(** Mallory asks for the name of alice's request; in between alice's Interest is refused once. *)
Example C128_refuted_case : env_laws toy /\ suffix_limit_sane x_cfg /\ ca_at toy x_cfg (db_ops toy) x_ca0 /\ applies toy x_cfg fo_req0 (x_rin x_now 1) (x_inputs x_now 1) x_keyname fo_sk x_now (x_now + sec 3600) /\
  id_for toy (ca_idkey x_ca0) (c_name (cert_request toy fo_sk (x_rin x_now 1) x_keyname x_now (x_now + sec 3600))) = SessionWitness.v_id /\ pending (db_ops toy) x_ca0 SessionWitness.v_id = None /\
  asks_new toy fo_req0 (x_rin x_now 1) x_keyname fo_sk x_now (x_now + sec 3600) fo_x fo_req1 /\ step toy x_cfg (db_ops toy) x_ca0 (EvInterest (x_inputs x_now 1) fo_x) = Some fo_ca1 /\
  undisturbed toy x_cfg (db_ops toy) SessionWitness.v_id (o_pub toy fo_sk) (fst fo_ca1) (fst fo_ca1) /\
  applies toy x_cfg x_req0 (x_rin x_now 1) (x_inputs x_now 1) x_keyname x_sk x_now (x_now + sec 3600) /\ o_pub toy x_sk <> o_pub toy fo_sk.
Proof.
  split; [exact toy_laws|]. split; [exact x_sane|]. split; [exact x_at0|]. split; [exact fo_applies|]. split; [vm_compute; reflexivity|]. split; [reflexivity|]. split; [exact fo_asks|].
  split; [exact fo_step1|]. split; [exact fo_undisturbed|]. split; [exact v_applies|]. vm_compute. discriminate.
Qed.

(** A pending request under the ID of the requested name is the only obstacle: whatever else strangers did, an allowed NEW Interest opens the
    request exactly if there is none. *)
Theorem C128_exact_partial : forall E g S (ops : store_ops S) ca s0 ri rj i kn sk nb na, env_laws E -> config_fits g -> ca_at E g ops ca -> applies E g s0 ri i kn sk nb na -> length (ri_salt0 rj) = 32%nat ->
  (exists ca' es s', opening E g ops ca s0 ri rj i kn sk nb na = Some (ca', es, s', p_challenges (cfp g))) <->
  pending ops ca (id_for E (ca_idkey ca) (c_name (cert_request E sk ri kn nb na))) = None.
Proof. exact opens_iff. Qed.
Print Assumptions C128_exact_partial.
(** The name mallory asked for, and the name of the second attempt. *)
Example C128_exact_case : env_laws toy /\ config_fits x_cfg /\ ca_at toy x_cfg (db_ops toy) (fst fo_ca1) /\ applies toy x_cfg x_req0 (x_rin x_now 1) (x_inputs x_now 1) x_keyname x_sk x_now (x_now + sec 3600) /\
  pending (db_ops toy) (fst fo_ca1) (id_for toy (ca_idkey (fst fo_ca1)) (c_name (cert_request toy x_sk (x_rin x_now 1) x_keyname x_now (x_now + sec 3600)))) <> None /\
  applies toy x_cfg x_req0 (x_rin x_now 2) (x_inputs x_now 1) x_keyname x_sk x_now (x_now + sec 3600) /\
  pending (db_ops toy) (fst fo_ca1) (id_for toy (ca_idkey (fst fo_ca1)) (c_name (cert_request toy x_sk (x_rin x_now 2) x_keyname x_now (x_now + sec 3600)))) = None /\ length (ri_salt0 (x_rin x_now 2)) = 32%nat.
Proof.
  split; [exact toy_laws|]. split; [exact v_fits|]. split; [exact fo_at1|]. split; [exact v_applies|]. split; [exact fo_held|]. split; [exact fo_again|]. split; [exact fo_free|reflexivity].
Qed.
(** Who does not know the name cannot get in the way: if the CA process has not been restarted and no Interest it handled carried a certificate whose
    name has the same request ID (the same name, or a collision of the HMAC's first eight bytes), the request is opened. *)
Theorem C128_unheard_partial : forall E g S (ops : store_ops S) tr ca s0 ri rj i kn sk nb na, env_laws E -> config_fits g -> ca_history E g ops tr ca -> Forall (fun st => ~ restarts (h_ev st)) tr ->
  applies E g s0 ri i kn sk nb na -> length (ri_salt0 rj) = 32%nat -> ~ heard_of E (ca_idkey ca) (id_for E (ca_idkey ca) (c_name (cert_request E sk ri kn nb na))) tr ->
  exists ca' es s', opening E g ops ca s0 ri rj i kn sk nb na = Some (ca', es, s', p_challenges (cfp g)).
Proof. exact unseen_opens. Qed.
Print Assumptions C128_unheard_partial.
(** Mallory's Interest has been handled, for another version. *)
Example C128_unheard_case : env_laws toy /\ config_fits x_cfg /\ ca_history toy x_cfg (db_ops toy) [fo_e1] (fst fo_ca1) /\ Forall (fun st => ~ restarts (h_ev st)) [fo_e1] /\
  applies toy x_cfg x_req0 (x_rin x_now 2) (x_inputs x_now 1) x_keyname x_sk x_now (x_now + sec 3600) /\
  ~ heard_of toy (ca_idkey (fst fo_ca1)) (id_for toy (ca_idkey (fst fo_ca1)) (c_name (cert_request toy x_sk (x_rin x_now 2) x_keyname x_now (x_now + sec 3600)))) [fo_e1] /\
  heard_of toy (ca_idkey (fst fo_ca1)) SessionWitness.v_id [fo_e1].
Proof.
  split; [exact toy_laws|]. split; [exact v_fits|]. split; [exact fo_h1|]. split; [exact fo_quiet|]. split; [exact fo_again|]. split; [exact fo_unheard|exact fo_heard].
Qed.
(** And whoever was turned down asks under another name the next time, for the same key: genNewInterest takes the version from the clock. *)
Theorem C128_again_partial : forall E g s ri i kn sk nb na s' ri' i' nb' na' x t x' t', env_laws E -> applies E g s ri i kn sk nb na -> applies E g s' ri' i' kn sk nb' na' ->
  ri_version ri < 2 ^ 64 -> ri_version ri' < 2 ^ 64 -> ri_version ri <> ri_version ri' -> asks_new E s ri kn sk nb na x t -> asks_new E s' ri' kn sk nb' na' x' t' ->
  exists peer c peer' c', carries E RT_NEW x peer c /\ carries E RT_NEW x' peer' c' /\ c_name c <> c_name c' /\ public_key c = public_key c'.
Proof. exact another_name. Qed.
Print Assumptions C128_again_partial.
Example C128_again_case : applies toy x_cfg x_req0 (x_rin x_now 1) (x_inputs x_now 1) x_keyname x_sk x_now (x_now + sec 3600) /\ applies toy x_cfg x_req0 (x_rin x_now 2) (x_inputs x_now 1) x_keyname x_sk x_now (x_now + sec 3600) /\
  ri_version (x_rin x_now 1) < 2 ^ 64 /\ ri_version (x_rin x_now 2) < 2 ^ 64 /\ ri_version (x_rin x_now 1) <> ri_version (x_rin x_now 2) /\
  asks_new toy x_req0 (x_rin x_now 1) x_keyname x_sk x_now (x_now + sec 3600) x_new_interest x_req1 /\ asks_new toy x_req0 (x_rin x_now 2) x_keyname x_sk x_now (x_now + sec 3600) fo_y2 x_req1.
Proof.
  split; [exact v_applies|]. split; [exact fo_again|]. split; [reflexivity|]. split; [reflexivity|]. split; [discriminate|]. split; [exact fo_asks1|exact fo_asks2].
Qed.
