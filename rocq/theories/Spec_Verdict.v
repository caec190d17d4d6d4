(** Vocabulary for the statements about why the CA gives up a pending request. *)
From Verif Require Export Spec_Trace Spec_Accept.
Local Open Scope N_scope.

(** The value given last for a key. *)
Definition last_value (params : list tlv) (k v : bytes) : Prop :=
  exists a b, params = a ++ Tlv T_ParameterKey k :: Tlv T_ParameterValue v :: b /\ forall v', ~ pair_in b k v'.
(** A parameter value that holds a certificate, and parameters with a credential that is none. *)
Definition encloses (E : env) (v : bytes) (c : cert) : Prop := exists b, block_from_value v = Some b /\ data_decode E b = Some c.
Definition garbled (E : env) (params : list tlv) : Prop := exists v, pair_in params (bs "issued-cert") v /\ forall c, ~ encloses E v c.
(** The credential and the proof that count. *)
Definition credential (E : env) (params : list tlv) (c : cert) : Prop :=
  exists v, last_value params (bs "issued-cert") v /\ encloses E v c /\ c_content c <> None.
Definition proof (params : list tlv) (p : bytes) : Prop := last_value params (bs "proof") p /\ p <> [].

(** The challenge named [ty] ends in failure for a request [r]: the reasons, with the code that is reported. *)
Inductive challenge_fails (E : env) (cfg : chal_cfg) (i : inputs) (params : list tlv) (r : request) : bytes -> N -> Prop :=
| fail_no_code_expected : forall ty life, code_life ty life -> rq_status r <> ST_BEFORE -> (forall cs, rq_cs r = Some cs -> ~ wants_code cs) ->
    challenge_fails E cfg i params r ty (4 (* invalid parameter *))
| fail_too_late : forall ty life cs t, code_life ty life -> rq_status r <> ST_BEFORE -> rq_cs r = Some cs -> wants_code cs ->
    get T_ParameterValue params = Some t -> (sec life <= in_t1 i - cs_time cs)%Z -> challenge_fails E cfg i params r ty (8 (* out of time *))
| fail_last_try : forall ty cs given code, rq_status r <> ST_BEFORE -> rq_cs r = Some cs -> guesses i params cs ty given ->
    sec_get (bs "code") (cs_secrets cs) = Some code -> given <> code -> cs_tries cs <= 1 -> challenge_fails E cfg i params r ty (7 (* out of tries *))
| fail_garbled : forall anchors, cc_anchors cfg = Ok anchors -> garbled E params -> challenge_fails E cfg i params r (bs "possession") (4 (* invalid parameter *))
| fail_no_credential : forall anchors, cc_anchors cfg = Ok anchors -> ~ garbled E params -> rq_status r = ST_BEFORE ->
    (forall c, ~ credential E params c) \/ (exists p, proof params p) -> challenge_fails E cfg i params r (bs "possession") (1 (* bad Interest format *))
| fail_untrusted : forall anchors c loc, cc_anchors cfg = Ok anchors -> ~ garbled E params -> rq_status r = ST_BEFORE ->
    credential E params c -> (forall p, ~ proof params p) -> c_keyloc c = Some loc -> o_pubkey_ok E (public_key c) = true -> ~ trusted E cfg c ->
    challenge_fails E cfg i params r (bs "possession") (4 (* invalid parameter *))
| fail_no_proof_expected : forall anchors, cc_anchors cfg = Ok anchors -> ~ garbled E params -> rq_status r <> ST_BEFORE ->
    (forall cs, rq_cs r = Some cs -> cs_status cs <> bs "need-proof") -> challenge_fails E cfg i params r (bs "possession") (4 (* invalid parameter *))
| fail_no_proof : forall anchors cs, cc_anchors cfg = Ok anchors -> ~ garbled E params -> rq_status r <> ST_BEFORE -> rq_cs r = Some cs ->
    cs_status cs = bs "need-proof" -> (exists c, credential E params c) \/ (forall p, ~ proof params p) ->
    challenge_fails E cfg i params r (bs "possession") (1 (* bad Interest format *))
| fail_proof : forall anchors cs c nonce p, cc_anchors cfg = Ok anchors -> ~ garbled E params -> rq_status r <> ST_BEFORE -> rq_cs r = Some cs ->
    proves E cs c nonce -> wf_cert c -> cert_ok c = true -> (forall c', ~ credential E params c') -> proof params p ->
    o_pubkey_ok E (public_key c) = true -> o_verify E (public_key c) (MRaw nonce) p = false -> challenge_fails E cfg i params r (bs "possession") (4 (* invalid parameter *)).

(** The plaintext of a CHALLENGE Interest that opens for the request, with an acceptable initialization vector. *)
Definition unsealed (E : env) (r : request) (x : interest) (pt : bytes) : Prop :=
  exists iv', aes_reads E (rq_key r) (rq_id r) (rq_div r) (rq_eiv r) (params_of x) pt iv'.
(** Its parameters. *)
Definition contains (E : env) (r : request) (x : interest) (params : list tlv) : Prop :=
  exists pt, unsealed E r x pt /\ pt <> [] /\ parse pt = Some params.

(** The reasons for giving up the request [r] when [x], signed by its key, arrives. *)
Inductive gives_up (E : env) (cfg : chal_cfg) (i : inputs) (x : interest) (r : request) : N -> Prop :=
| gu_unreadable : (forall pt, ~ unsealed E r x pt) -> gives_up E cfg i x r (4 (* invalid parameter *))
| gu_empty : unsealed E r x [] -> gives_up E cfg i x r (4 (* invalid parameter *))
| gu_unknown : forall params ty, contains E r x params -> selects params ty -> ~ In ty [bs "pin"; bs "email"; bs "possession"] ->
    gives_up E cfg i x r (4 (* invalid parameter *))
| gu_failed : forall params ty code, contains E r x params -> selects params ty -> challenge_fails E cfg i params r ty code ->
    gives_up E cfg i x r code.
