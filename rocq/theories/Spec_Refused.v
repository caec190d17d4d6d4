(** Vocabulary for the statements about the error replies of a CA. *)
From Verif Require Export Spec_Crash.
Local Open Scope N_scope.

(** [d] is the CA's error reply to [x] with this code and this text. *)
Definition told_error (E : env) (g : ca_cfg) (x : interest) (code : N) (text : bytes) (d : data) : Prop :=
  d_name d = i_name x /\ data_signed_by E d (cf_sk g) /\ err_decode (d_content d) = (code, text).

(** The parameters name a usable ECDH key; the CA's own certificate is in its validity period. *)
Definition readable (E : env) (g : ca_cfg) (i : inputs) (rt : N) (x : interest) (peer : bytes) (c : cert) : Prop :=
  within (in_t1 i) (c_validity (cf_cert g)) /\ carries E rt x peer c /\ peer <> [] /\ fst (o_ecdh E (in_sk i) peer) <> 0%Z.
(** The first check of a NEW or REVOKE Interest that fails, with the error code and the text that go with it. *)
Inductive refused (E : env) (g : ca_cfg) (i : inputs) (rt : N) (idkey : bytes) (taken : bytes -> Prop) (x : interest) : N -> bytes -> Prop :=
| rw_ca : c_validity (cf_cert g) <> None -> ~ within (in_t1 i) (c_validity (cf_cert g)) ->
    refused E g i rt idkey taken x (6 (* bad validity period *)) (bs "Server certificate invalid/expired")
| rw_no_params : within (in_t1 i) (c_validity (cf_cert g)) -> (forall peer c, ~ carries E rt x peer c) -> i_params x = None ->
    refused E g i rt idkey taken x (4 (* invalid parameter *)) (bs "Empty TLV obtained from the Interest parameter.")
| rw_params : forall p, within (in_t1 i) (c_validity (cf_cert g)) -> (forall peer c, ~ carries E rt x peer c) -> i_params x = Some p ->
    refused E g i rt idkey taken x (4 (* invalid parameter *)) (bs "Unrecognized self-signed certificate.")
| rw_empty_key : forall c, within (in_t1 i) (c_validity (cf_cert g)) -> carries E rt x [] c ->
    refused E g i rt idkey taken x (4 (* invalid parameter *)) (bs "Empty ECDH PUB obtained from the Interest parameter.")
| rw_bad_key : forall peer c, within (in_t1 i) (c_validity (cf_cert g)) -> carries E rt x peer c -> peer <> [] -> fst (o_ecdh E (in_sk i) peer) = 0%Z ->
    refused E g i rt idkey taken x (4 (* invalid parameter *)) (bs "Cannot derive a shared secret using the provided ECDH key.")
| rw_name : forall peer c, readable E g i rt x peer c -> ~ name_policy g (c_name c) ->
    refused E g i rt idkey taken x (5 (* name not allowed *))
      (bs "An invalid certificate name is being requested.")
| rw_period : forall peer c nb na, usable E g i rt x peer c -> rt = RT_NEW -> c_validity c = Some (nb, na) -> ~ period_policy g (in_t2 i) nb na ->
    refused E g i rt idkey taken x (6 (* bad validity period *)) (bs "An invalid validity period is being requested.")
| rw_self : forall peer c nb na, usable E g i rt x peer c -> rt = RT_NEW -> c_validity c = Some (nb, na) -> period_policy g (in_t2 i) nb na ->
    ~ cert_signed_by E c (public_key c) ->
    refused E g i rt idkey taken x (3 (* bad signature *)) (bs "Invalid signature in the self-signed certificate.")
| rw_interest : forall peer c nb na, usable E g i rt x peer c -> rt = RT_NEW -> c_validity c = Some (nb, na) -> period_policy g (in_t2 i) nb na ->
    cert_signed_by E c (public_key c) -> ~ signed_by E x (public_key c) ->
    refused E g i rt idkey taken x (3 (* bad signature *)) (bs "Invalid signature in the Interest packet.")
| rw_revoke : forall peer c, usable E g i rt x peer c -> rt = RT_REVOKE -> ~ cert_signed_by E c (public_key (cf_cert g)) ->
    refused E g i rt idkey taken x (3 (* bad signature *)) (bs "Invalid signature in the certificate to revoke.")
| rw_taken : forall peer c, usable E g i rt x peer c -> cert_policy E g rt (in_t2 i) x c -> key_derivable E i (id_for E idkey (c_name c)) peer ->
    taken (id_for E idkey (c_name c)) ->
    refused E g i rt idkey taken x (4 (* invalid parameter *)) (bs "Duplicate Request ID: The same request has been seen before.").

(** A CHALLENGE Interest that is answered with an error before its parameters are looked at. *)
Inductive turned_away (E : env) (g : ca_cfg) {S} (ops : store_ops S) (s : ca_state S) (x : interest) : N -> bytes -> Prop :=
| ta_nothing : i_name x = p_prefix (cfp g) ++ [gc (bs "CA"); gc (bs "CHALLENGE")] ->
    turned_away E g ops s x (4 (* invalid parameter *)) (bs "No certificate request state can be found.")
| ta_unknown : forall id, names_request g id x -> pending ops s id = None ->
    turned_away E g ops s x (4 (* invalid parameter *)) (bs "No certificate request state can be found.")
| ta_signature : forall id r, names_request g id x -> pending ops s id = Some r -> ~ signed_by E x (public_key (rq_cert r)) ->
    turned_away E g ops s x (3 (* bad signature *)) (bs "Invalid Signature in the Interest packet.").
