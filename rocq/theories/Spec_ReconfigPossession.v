(** Vocabulary for C129: the possession challenge of a CA that changes its configuration. *)
From Verif Require Export Spec_ReconfigSession Spec_Ca Spec_Trace.
Local Open Scope N_scope.

(** A CHALLENGE Interest for the request [r], the first one, that presents the credential [c] of a trust anchor of the configuration in force, under the
    name the CA has for the challenge. *)
Record presents (E : env) (g : ca_cfg) (id : bytes) (r : request) (x : interest) (c : cert) : Prop := {
  pn_names : names_request g id x;
  pn_first : rq_status r = ST_BEFORE;
  pn_signed : signed_by E x (public_key (rq_cert r));
  pn_params : exists w b, acceptable E r x (start_params w) /\ block_from_value w = Some b /\ data_decode E b = Some c;
  pn_cert : cert_ok c = true /\ c_content c <> None /\ o_pubkey_ok E (public_key c) = true;
  pn_trusted : trusted E (cf_chal g) c
}.
(** A CHALLENGE Interest for the request [r] that answers the challenge: a signature over the nonce by the credential's key. *)
Record responds (E : env) (g : ca_cfg) (id : bytes) (r : request) (x : interest) (c : cert) (nonce sig : bytes) : Prop := {
  ra_names : names_request g id x;
  ra_signed : signed_by E x (public_key (rq_cert r));
  ra_params : acceptable E r x (proof_params sig);
  ra_proof : sig <> [] /\ o_verify E (public_key c) (MRaw nonce) sig = true
}.
