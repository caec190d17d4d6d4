(** C124: a reply kept in the network never answers another Interest.  Vocabulary in Spec_Cache.v; C18 says that a reply has the name of the Interest it is for. *)
From Verif Require Import CacheWitness RevokeWitness.
Local Open Scope N_scope.

(** The name of every Interest a requester makes for NEW, REVOKE and CHALLENGE ends in the digest of its parameters, *)
Theorem C124_digest : forall E p s c o s' x, call_req E p s c = (o, s') -> makes (c, o) x -> digest_last E x.
Proof. exact made_last. Qed.
Print Assumptions C124_digest.
(** and so does that of a PROBE. *)
Theorem C124_probe : forall E p params, digest_last E (gen_probe E p params).
Proof. exact probe_last. Qed.
Print Assumptions C124_probe.
Example C124_digest_case : exists s', call_req toy kc_pib x_req0 kc_new = (ONew (Ok (Some ch_n1)), s') /\ makes (kc_new, ONew (Ok (Some ch_n1))) ch_n1.
Proof. exact ch_makes. Qed.
(** A reply of the CA that answers such an Interest was made for the same name and the same parameters. *)
Theorem C124_reply : forall E g S (ops : store_ops S) s i x es d y, ca_at E g ops s ->
  addressed g VProbe (i_name x) \/ addressed g VNew (i_name x) \/ addressed g VRevoke (i_name x) \/ addressed g VChallenge (i_name x) ->
  on_interest E g ops s i x = (es, Ok tt) -> In d (puts es) ->
  digest_last E x -> digest_last E y -> in_packet x -> in_packet y -> no_collision E x y ->
  satisfies d y -> i_name x = i_name y /\ i_params x = i_params y.
Proof. exact own_reply. Qed.
Print Assumptions C124_reply.
Example C124_reply_case : digest_last toy ch_x /\ in_packet ch_x /\ no_collision toy ch_x ch_x /\ satisfies (the_put (snd ch_ca)) ch_x.
Proof. exact ch_own. Qed.
(** The reply to one CHALLENGE Interest of a request never answers another one of that request, whatever is called in between and even if it carries the same code. *)
Theorem C124_guesses : forall E p pr rt ecdh id0 a b l c1 c2 x y s g S (ops : store_ops S) ca i es d, aes_laws E ->
  performs E p (request_init pr rt ecdh id0) (a ++ (c1, OChallenge (Ok x)) :: b ++ (c2, OChallenge (Ok y)) :: l) s ->
  in_packet x -> in_packet y -> no_collision E x y ->
  ca_at E g ops ca -> addressed g VChallenge (i_name x) -> on_interest E g ops ca i x = (es, Ok tt) -> In d (puts es) -> satisfies d x /\ ~ satisfies d y.
Proof. exact no_stale_reply. Qed.
Print Assumptions C124_guesses.
Theorem C124_names : forall E p pr rt ecdh id0 a b l c1 c2 x y s, aes_laws E ->
  performs E p (request_init pr rt ecdh id0) (a ++ (c1, OChallenge (Ok x)) :: b ++ (c2, OChallenge (Ok y)) :: l) s ->
  in_packet x -> in_packet y -> no_collision E x y -> i_name x <> i_name y.
Proof. exact challenge_names. Qed.
Print Assumptions C124_names.
(** Twice the code 000000. *)
Example C124_guesses_case : aes_laws toy /\ performs toy kc_pib (request_init x_profile RT_NEW (rs_ecdh x_req0) (rs_id x_req0)) (ch_a ++ (ch_guess, OChallenge (Ok ch_x)) :: ch_b ++ (ch_guess, OChallenge (Ok ch_y)) :: []) (snd ch_run) /\
  in_packet ch_x /\ in_packet ch_y /\ no_collision toy ch_x ch_y /\ ca_at toy x_cfg (db_ops toy) (fst x_ca2) /\ addressed x_cfg VChallenge (i_name ch_x) /\
  exists es d, on_interest toy x_cfg (db_ops toy) (fst x_ca2) (x_inputs (x_now + sec 20) 3) ch_x = (es, Ok tt) /\ In d (puts es).
Proof. exact ch_case. Qed.
(** NEW Interests with different ephemeral keys have different names, and so have REVOKE Interests. *)
Theorem C124_new : forall E p q s t ri rj kn km nb na ob oa x y s' t', gen_new_from E p s ri kn nb na = (Ok (Some x), s') -> gen_new_from E q t rj km ob oa = (Ok (Some y), t') ->
  in_packet x -> in_packet y -> no_collision E x y -> o_ecdh_pub E (rs_ecdh s) <> o_ecdh_pub E (rs_ecdh t) -> i_name x <> i_name y.
Proof. exact new_names. Qed.
Print Assumptions C124_new.
Example C124_new_case : (exists s s', gen_new_from toy kc_pib x_req0 (x_rin x_now 1) x_keyname x_now (x_now + sec 3600) = (Ok (Some ch_n1), s) /\
    gen_new_from toy kc_pib ch_req (x_rin x_now 1) x_keyname x_now (x_now + sec 3600) = (Ok (Some ch_n2), s')) /\
  in_packet ch_n1 /\ in_packet ch_n2 /\ no_collision toy ch_n1 ch_n2 /\ o_ecdh_pub toy (rs_ecdh x_req0) <> o_ecdh_pub toy (rs_ecdh ch_req).
Proof. exact ch_new. Qed.
Theorem C124_revoke : forall E s t c c' x y, gen_revoke E s c = Some x -> gen_revoke E t c' = Some y ->
  in_packet x -> in_packet y -> no_collision E x y -> o_ecdh_pub E (rs_ecdh s) <> o_ecdh_pub E (rs_ecdh t) -> i_name x <> i_name y.
Proof. exact revoke_names. Qed.
Print Assumptions C124_revoke.
Example C124_revoke_case : gen_revoke toy rv_req0 w_cert = Some rv_x0 /\ gen_revoke toy ch_rv w_cert = Some ch_r2 /\
  in_packet rv_x0 /\ in_packet ch_r2 /\ no_collision toy rv_x0 ch_r2 /\ o_ecdh_pub toy (rs_ecdh rv_req0) <> o_ecdh_pub toy (rs_ecdh ch_rv).
Proof. exact ch_revoke. Qed.
