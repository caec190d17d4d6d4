(** Requester and CA agree on a network that an attacker controls: theorems C88-C90.  Vocabulary in
    Spec_Network.v: [network] are the runs, [ideal] is what the attacker cannot do. *)
From Verif Require Import NetworkWitness.
Local Open Scope N_scope.

(** ** C88: a requester that accepts a reply to its NEW Interest shares the session with the CA *)
(** The CA took in exactly that Interest, for the certificate request that the requester sent with it, and holds the
    requester's request ID and session key; the requester learned the CA's challenges. *)
Theorem C88_joins_agree : forall E g S (ops : store_ops S) p sk, setting E g ops p -> forall tr ca s w a x d chals s' b,
  network E g ops p sk tr ca s w -> ideal E g ops sk tr -> tr = a ++ DNewReply x d (Ok chals) s' :: b ->
  exists c0 r, took_in a x c0 r /\ rq_id r = rs_id s' /\ rq_key r = rs_key s' /\ chals = p_challenges (cfp g).
Proof. exact joins_agree. Qed.
Print Assumptions C88_joins_agree.
Example C88_case : setting toy x_cfg (db_ops toy) x_profile /\ network toy x_cfg (db_ops toy) x_profile x_sk a_tr (fst a_ca5) x_req5 WaitNothing /\ ideal toy x_cfg (db_ops toy) x_sk a_tr /\
  a_tr = a_tr1 ++ DNewReply x_new_interest a_real (Ok a_chals) x_req2 :: a_rest1.
Proof. exact (conj a_setting (conj a_run (conj a_ideal eq_refl))). Qed.

(** ** C89: a requester that accepts a reply to a CHALLENGE Interest is in the state the CA told it *)
(** The CA handled exactly that Interest, for the request that the last accepted NEW reply opened, and either stored
    the challenge status and tries that the requester now shows, or issued the certificate whose name the requester
    now holds. *)
Theorem C89_challenges_agree : forall E g S (ops : store_ops S) p sk, setting E g ops p -> forall tr ca s w a x d s' b x0 s0,
  network E g ops p sk tr ca s w -> ideal E g ops sk tr -> tr = a ++ DChalReply x d (Ok tt) s' :: b -> joined a x0 s0 ->
  exists c0 r0 st i, took_in a x0 c0 r0 /\ rq_id r0 = rs_id s' /\ rq_key r0 = rs_key s' /\
    In (DCa st) a /\ handles st i x /\ names_request g (rs_id s') x /\
    ((exists r cs, In (EUpdate r) (h_effs st) /\ rq_id r = rq_id r0 /\ rq_key r = rq_key r0 /\ rq_cert r = c0 /\ rq_status r = ST_CHALLENGE /\ rq_cs r = Some cs /\
        rs_status s' = ST_CHALLENGE /\ rs_cstatus s' = cs_status cs /\ rs_tries s' = Z.of_N (cs_tries cs)) \/
     exists c, In (EIssue c) (h_effs st) /\ certifies E g c0 c /\ rs_status s' = ST_SUCCESS /\ rs_issued s' = c_name c /\ rs_fwd s' = p_fwd (cfp g)).
Proof. exact challenges_agree. Qed.
Print Assumptions C89_challenges_agree.
Example C89_case : setting toy x_cfg (db_ops toy) x_profile /\ network toy x_cfg (db_ops toy) x_profile x_sk a_tr (fst a_ca5) x_req5 WaitNothing /\ ideal toy x_cfg (db_ops toy) x_sk a_tr /\
  a_tr = (a_tr3 ++ [DCa x_e4; DCa a_e5]) ++ DChalReply a_y3 a_put4 (Ok tt) x_req5 :: [] /\ joined (a_tr3 ++ [DCa x_e4; DCa a_e5]) x_new_interest x_req2.
Proof. exact (conj a_setting (conj a_run (conj a_ideal (conj eq_refl a_joined)))). Qed.

(** ** C90: a certificate for the requester's key is issued only if the requester asked for it *)
(** Before, the requester sent the certificate request, a message that starts a challenge and one that passes it, and
    the CA handled them (or packets that say the same) in this order for one request. *)
Theorem C90_issue_agrees : forall E g S (ops : store_ops S) p sk, setting E g ops p -> forall tr ca s w a st b c,
  network E g ops p sk tr ca s w -> ideal E g ops sk tr -> tr = a ++ DCa st :: b -> In (EIssue c) (h_effs st) -> public_key c = o_pub E sk ->
  exists c0 r new x1 y1 i1 start x2 key2 y2 i2 x3 key3 y3 i3,
    certifies E g c0 c /\
    (In (DNew x1 c0) a /\ In (DCa new) a /\ handles new i1 y1 /\ interest_msg y1 = interest_msg x1 /\ In (EAdd r) (h_effs new) /\ rq_type r = RT_NEW /\ rq_cert r = c0) /\
    (In (DChallenge x2 key2) a /\ In (DCa start) a /\ handles start i2 y2 /\ interest_msg y2 = interest_msg x2 /\ names_request g (rq_id r) y2) /\
    (In (DChallenge x3 key3) a /\ handles st i3 y3 /\ interest_msg y3 = interest_msg x3 /\ names_request g (rq_id r) y3).
Proof. exact issue_agrees. Qed.
Print Assumptions C90_issue_agrees.
Example C90_case : setting toy x_cfg (db_ops toy) x_profile /\ network toy x_cfg (db_ops toy) x_profile x_sk a_tr (fst a_ca5) x_req5 WaitNothing /\ ideal toy x_cfg (db_ops toy) x_sk a_tr /\
  a_tr = a_tr3 ++ DCa x_e4 :: [DCa a_e5; DChalReply a_y3 a_put4 (Ok tt) x_req5] /\ In (EIssue a_cert) (h_effs x_e4) /\ public_key a_cert = o_pub toy x_sk.
Proof. exact (conj a_setting (conj a_run (conj a_ideal (conj eq_refl a_issued)))). Qed.
