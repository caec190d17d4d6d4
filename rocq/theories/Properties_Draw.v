(** C108: where the random values of a CA go. *)
From Verif Require Import DrawFacts DrawWitness.
Local Open Scope N_scope.

(** ** C108: every random value is drawn afresh and goes to one place only *)
(** The salt and the ECDH key of an accepted request are those drawn while its Interest was handled; both go into the session
    key and, in the clear, into the reply. *)
Theorem C108_new : forall E g S (ops : store_ops S) a st b s r i x, ca_history E g ops (a ++ st :: b) s -> handles st i x -> In (EAdd r) (h_effs st) ->
  exists peer c, carries E (rq_type r) x peer c /\ rq_key r = snd (o_hkdf E (snd (o_ecdh E (in_sk i) peer)) (be_enc 32 (in_salt i)) (rq_id r)) /\
    (Forall fits (p_challenges (cfp g)) -> fits (o_ecdh_pub E (in_sk i)) -> answered st ->
     puts_elements st ([Tlv T_EcdhPub (o_ecdh_pub E (in_sk i)); Tlv T_Salt (be_enc 32 (in_salt i)); Tlv T_RequestId (rq_id r)] ++ map (Tlv T_Challenge) (p_challenges (cfp g)))).
Proof. exact @new_draws_in. Qed.
Print Assumptions C108_new.
Example C108_new_case : (exists r, In (EAdd r) (h_effs x_e1)) /\ handles x_e1 (x_inputs x_now 1) x_new_interest /\ answered x_e1 /\
  Forall fits (p_challenges (cfp x_cfg)) /\ fits (o_ecdh_pub toy (in_sk (x_inputs x_now 1))).
Proof. exact dr_accepts. Qed.
(** The random part of every initialization vector in a reply was drawn for this request, since it was accepted. *)
Theorem C108_iv : forall E g S (ops : store_ops S) a st0 b st c s id iv, ca_history E g ops (a ++ st0 :: b ++ st :: c) s -> adds id st0 -> reply_iv g id st iv ->
  iv_drawn g id iv (b ++ [st]).
Proof. exact @iv_source. Qed.
Print Assumptions C108_iv.
(** The first one is the eight bytes drawn for this very reply and a counter of zero. *)
Theorem C108_first_iv : forall E g S (ops : store_ops S) a st0 b st c s id iv, ca_history E g ops (a ++ st0 :: b ++ st :: c) s -> adds id st0 ->
  (forall st' i x, In st' b -> handles st' i x -> ~ names_request g id x) -> reply_iv g id st iv ->
  exists i x, handles st i x /\ iv = be_enc 8 (in_iv i) ++ be_enc 4 0.
Proof. exact @iv_first. Qed.
Print Assumptions C108_first_iv.
Example C108_iv_case : ca_history toy x_cfg (db_ops toy) ([] ++ x_e1 :: [] ++ x_e2 :: [x_e3; x_e4]) (fst x_ca4) /\
  ca_history toy x_cfg (db_ops toy) ([] ++ x_e1 :: [x_e2] ++ x_e3 :: [x_e4]) (fst x_ca4) /\ adds z_id x_e1 /\
  reply_iv x_cfg z_id x_e2 (dr_iv (snd x_ca2)) /\ reply_iv x_cfg z_id x_e3 (dr_iv (snd x_ca3)).
Proof. exact dr_replies. Qed.
(** A secret the CA stores for a challenge was on record already, or is the code of the first usable word drawn, the nonce
    drawn, or the credential the requester presented. *)
Theorem C108_secret : forall E g S (ops : store_ops S) a st b s i x id r0 r k v, ca_history E g ops (a ++ st :: b) s -> handles st i x -> names_request g id x ->
  pending ops (h_pre st) id = Some r0 -> stores_secret st r k v ->
  (exists cs, rq_cs r0 = Some cs /\ In (k, v) (cs_secrets cs)) \/
  (k = bs "code" /\ exists before w rest, in_words i = before ++ w :: rest /\ Forall (fun w => 4294000000 <= w mod 2 ^ 32) before /\ w mod 2 ^ 32 < 4294000000 /\ v = pad6 (to_string_N ((w mod 2 ^ 32) / 4294))) \/
  (k = bs "nonce" /\ v = to_hex (be_enc 16 (in_nonce i))) \/
  (k = bs "issued-cert" /\ exists params c, opens E (rq_key r0) id x params /\ credential_in E params c /\ v = to_hex (enc_tlv (cert_tlv E c))).
Proof. exact @secret_draws_in. Qed.
Print Assumptions C108_secret.
Example C108_secret_case : exists r0 r v r0' r' v',
  handles x_e2 (x_inputs (x_now + sec 10) 2) (the_interest x_chal1) /\ names_request x_cfg z_id (the_interest x_chal1) /\ pending (db_ops toy) (h_pre x_e2) z_id = Some r0 /\ rq_cs r0 = None /\ stores_secret x_e2 r (bs "code") v /\
  handles p_e2 (x_inputs (x_now + sec 10) 2) (fst p_chal1) /\ names_request w_cfg z_id (fst p_chal1) /\ pending mem_ops (h_pre p_e2) z_id = Some r0' /\ rq_cs r0' = None /\ stores_secret p_e2 r' (bs "nonce") v'.
Proof. exact dr_secrets. Qed.
