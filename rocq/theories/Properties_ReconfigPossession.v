(** C129: the possession challenge while the CA changes its configuration.  Vocabulary in Spec_ReconfigPossession.v and Spec_ReconfigSession.v. *)
From Verif Require Import ReconfigPossessionWitness.
Local Open Scope N_scope.

(** ** C129 A requester that is asked to prove that it holds its credential's key can do so after the CA has changed its configuration *)
(** The requester presents the credential and the CA asks for a signature over a nonce.  Then the CA may be stopped, started again with other
    trust anchors or with another list of challenges, and serve others.  A signature over that nonce by the credential's key gets the certificate
    issued and ends the request, even if no anchor of the new configuration vouches for the credential.  The condition is that the new anchor file
    can be read. *)
Theorem C129_issued_partial : forall E S (ops : store_ops S) tr g s i x id r c, aes_laws E -> reconfigured E ops tr g s -> pending ops s id = Some r -> presents E g id r x c ->
  exists s1 es d l r1, step E g ops s (EvInterest i x) = Some (s1, es) /\ puts es = [d] /\ d_name d = i_name x /\ data_signed_by E d (cf_sk g) /\
    reply_opens E (rq_key r) id d l /\ says l T_Status ST_CHALLENGE /\ pair_in l (bs "nonce") (rnd_nonce i) /\ pending ops s1 id = Some r1 /\ rq_key r1 = rq_key r /\ rq_cert r1 = rq_cert r /\
    forall g2 s2 i2 x2 sig, quiet_change E ops id (public_key (rq_cert r)) g s1 g2 s2 -> responds E g2 id r1 x2 c (rnd_nonce i) sig -> (exists anchors, cc_anchors (cf_chal g2) = Ok anchors) ->
      rq_type r = RT_NEW -> blen (name_wire (c_name (rq_cert r))) < 2 ^ 31 -> blen (name_wire (p_fwd (cfp g2))) < 2 ^ 32 ->
      exists s3 es2 k d2 l2 t, step E g2 ops s2 (EvInterest i2 x2) = Some (s3, es2) /\ In (EIssue k) es2 /\ certifies E g2 (rq_cert r) k /\ pending ops s3 id = None /\
        puts es2 = [d2] /\ d_name d2 = i_name x2 /\ data_signed_by E d2 (cf_sk g2) /\ reply_opens E (rq_key r) id d2 l2 /\ says l2 T_Status ST_SUCCESS /\
        get T_IssuedCertName l2 = Some t /\ t_val t = name_wire (c_name k).
Proof. exact possession_change. Qed.
Print Assumptions C129_issued_partial.
(** A CA on the database is started again without the challenge and without any anchor between the nonce and the answer. *)
Example C129_issued_case : aes_laws toy /\ (exists tr, reconfigured toy (db_ops toy) tr x_cfg (fst x_ca1)) /\ (pending (db_ops toy) (fst x_ca1) z_id = Some pq_r1 /\ presents toy x_cfg z_id pq_r1 (fst p_chal1) x_cred) /\
  step toy x_cfg (db_ops toy) (fst x_ca1) (EvInterest pq_i (fst p_chal1)) = Some pq_ca2 /\
  (quiet_change toy (db_ops toy) z_id (public_key (rq_cert pq_r1)) x_cfg (fst pq_ca2) pq_cfg pq_ca3 /\ pending (db_ops toy) (fst pq_ca2) z_id = Some pq_r2 /\
   responds toy pq_cfg z_id pq_r2 (fst p_chal2) x_cred (rnd_nonce pq_i) p_sig /\ cc_anchors (cf_chal pq_cfg) = Ok [] /\ rq_type pq_r1 = RT_NEW) /\ ~ trusted toy (cf_chal pq_cfg) x_cred.
Proof.
  split; [exact (laws_aes _ toy_laws)|]. split; [exact pq_h1|]. split; [exact pq_presents|]. split; [exact pq_step2|]. split; [exact pq_responds|].
  intros (l & a & n & H & I & _). injection H as <-. destruct I.
Qed.

(** Without a readable anchor file the CA gives no answer at all to a CHALLENGE Interest of the possession challenge: the handler is left by an
    exception and the request stays as it was.  The answer to the nonce is affected too, although it needs no anchor; C129_refuted is such a case. *)
Theorem C129_silent : forall E S (ops : store_ops S) tr g s i x id r params, reconfigured E ops tr g s -> pending ops s id = Some r -> names_request g id x -> signed_by E x (public_key (rq_cert r)) ->
  acceptable E r x params -> selects params (bs "possession") -> cc_anchors (cf_chal g) = Exn -> on_interest E g ops s i x = ([], Exn).
Proof. exact anchors_lost. Qed.
Print Assumptions C129_silent.
Theorem C129_refuted : exists tr g s i x id r cs c nonce sig, reconfigured toy (db_ops toy) tr g s /\ pending (db_ops toy) s id = Some r /\ rq_cs r = Some cs /\ proves toy cs c nonce /\ responds toy g id r x c nonce sig /\
  cc_anchors (cf_chal g) = Exn /\ on_interest toy g (db_ops toy) s i x = ([], Exn).
Proof. exact pq_lost. Qed.
Print Assumptions C129_refuted.
