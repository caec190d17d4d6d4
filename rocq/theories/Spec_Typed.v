(** Vocabulary for what the client's packets tell about the codes and proofs the user types. *)
From Verif Require Export Spec_Client.
Local Open Scope N_scope.

(** The same clock and random draws, with other lines typed. *)
Definition with_lines (ls : list bytes) (ci : cinputs) : cinputs :=
  CIn ls (ci_now ci) (ci_ri ci) (ci_ecdh ci) (ci_id0 ci) (ci_key1 ci) (ci_key2 ci).
(** Replies to two Interests that say the same: the same content, both signed by the CA of the request or neither. *)
Definition same_reply (E : env) (c : client) (d d' : data) : Prop :=
  d_content d = d_content d' /\ forall s k, cl_req c = Some s -> p_cert (rs_profile s) = Some k -> (data_verifies E d k <-> data_verifies E d' k).
(** The request is in the middle of its challenge: what the client asked for last was a code or a proof. *)
Definition asks_secret (c : client) : Prop := exists s, cl_req c = Some s /\ rs_status s = 1.
Definition same_length (l l' : bytes) : Prop := length l = length l'.

(** Two histories that are the same up to the codes and proofs typed, which have the same lengths.  The replies to CHALLENGE
    Interests say the same; they have other names, as the Interests have. *)
Inductive same_but_typed (E : env) (file : option ptree) (pb : pib) : history -> history -> Prop :=
| sbt_start : forall ci, same_but_typed E file pb [(ci, None)] [(ci, None)]
| sbt_same : forall h h' ci ev, same_but_typed E file pb h h' -> same_but_typed E file pb ((ci, Some ev) :: h) ((ci, Some ev) :: h')
| sbt_reply : forall h h' ci d d' c0 x, same_but_typed E file pb h h' -> client_run E file pb h c0 (NWait x WChallenge) -> same_reply E c0 d d' ->
    same_but_typed E file pb ((ci, Some (CData d)) :: h) ((ci, Some (CData d')) :: h')
| sbt_typed : forall h h' ci d d' c0 x ls' c nx, same_but_typed E file pb h h' -> client_run E file pb h c0 (NWait x WChallenge) -> same_reply E c0 d d' ->
    client_run E file pb ((ci, Some (CData d)) :: h) c nx -> asks_secret c -> Forall2 same_length (ci_lines ci) ls' ->
    same_but_typed E file pb ((ci, Some (CData d)) :: h) ((with_lines ls' ci, Some (CData d')) :: h').

(** The CHALLENGE Interest of request [s] with the plaintext [pt]: the initialization vector, the tag and the ciphertext; the
    digest in its name and the signature are made from these. *)
Definition conceals (E : env) (s : rstate) (sk iv pt : bytes) (x : interest) : Prop :=
  exists ct tag n ps, o_aes_enc E (rs_key s) (firstn 12 iv) (rs_id s) pt = (ct, tag) /\
    n = p_prefix (rs_profile s) ++ [gc (bs "CA"); gc (bs "CHALLENGE"); gc (rs_id s)] /\
    ps = enc_tlvs [Tlv T_InitializationVector iv; Tlv T_AuthenticationTag tag; Tlv T_EncryptedPayload ct] /\
    i_name x = n ++ [Tlv T_ParamsDigest (o_sha256 E (enc_tlv (Tlv T_AppParams ps)))] /\ i_params x = Some ps /\
    i_sig x = Some (o_sign E sk (MInterest (strip_digest (i_name x)) ps)).
(** The same Interest, or two encryptions, with the same key, initialization vector and associated data, of plaintexts of the
    same length. *)
Definition alike (E : env) (x x' : interest) : Prop :=
  x = x' \/ exists s sk iv pt pt', length pt = length pt' /\ conceals E s sk iv pt x /\ conceals E s sk iv pt' x'.
(** The process does the same next. *)
Inductive next_alike (E : env) : cnext -> cnext -> Prop :=
| na_same : forall nx, (forall x w, nx <> NWait x w) -> next_alike E nx nx
| na_wait : forall x x' w, alike E x x' -> next_alike E (NWait x w) (NWait x' w).
(** What can be seen of two Interests without opening the ciphertext: the name but for the digest, how long the parameters are,
    and whether there is a signature. *)
Definition same_to_see (x x' : interest) : Prop :=
  removelast (i_name x) = removelast (i_name x') /\ length (params_of x) = length (params_of x') /\ (i_sig x = None <-> i_sig x' = None).
