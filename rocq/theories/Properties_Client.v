(** C69-C73: the command line client. *)
From Verif Require Import ClientFacts ClientWitness.
From Coq Require Import Permutation.
Local Open Scope N_scope.

(** ** C69: where trust comes from *)
(** PROBE, NEW and CHALLENGE go to a CA that is in the list and signed its profile, that the user confirmed, or that
    such a CA named in a signed redirection. *)
Theorem C69_trust : forall E file pb, codec_laws E -> forall h c nx, client_run E file pb h c nx ->
  (forall i p, nx = NWait i (WProbe p) -> rooted E file h p) /\ (forall s, cl_req c = Some s -> rooted E file h (rs_profile s)).
Proof. exact client_rooted. Qed.
Print Assumptions C69_trust.
(** A reply to one of them that its certificate does not verify, or that carries an error, ends the client and changes nothing. *)
Theorem C69_bad_reply : forall E file pb h c i w ci d q k, client_run E file pb h c (NWait i w) ->
  w = WProbe q \/ (w = WNew \/ w = WChallenge) /\ (exists s, cl_req c = Some s /\ rs_profile s = q) -> p_cert q = Some k ->
  bad_reply E k d -> client_step E c w ci (CData d) = (c, NExit 1).
Proof. exact client_bad_reply. Qed.
Print Assumptions C69_bad_reply.
Example C69_case : exists h c x p s, client_run toy w_file [] h c (NWait x WChallenge) /\ cl_req c = Some s /\ rs_profile s = p.
Proof. exact w_rooted. Qed.
Example C69_bad_case : exists h c x q, client_run toy w_file [] h c (NWait x (WProbe q)) /\ p_cert q = Some x_ca_cert /\ bad_reply toy x_ca_cert (Data [] [] 0 None []).
Proof. exact w_bad. Qed.

(** ** C70: what is installed *)
(** Missing: the signature of the certificate. *)
Theorem C70_installed_partial : forall E file pb h c nx k, client_run E file pb h c nx -> In k (cl_installed c) ->
  exists s i identity kid issuer version sk, cl_req c = Some s /\ told_success E h s /\ (c_name k = rs_issued s \/ full_name E k = rs_issued s) /\
    c_name k = identity ++ [gc (bs "KEY"); kid; issuer; version] /\ In i (cl_pib c) /\ id_name i = identity /\
    In (identity ++ [gc (bs "KEY"); kid], sk) (id_keys i) /\ public_key k = o_pub E sk.
Proof. exact client_installed. Qed.
Print Assumptions C70_installed_partial.
Theorem C70_signature_refuted : exists h c nx k s kc, client_run toy w_file [] h c nx /\ In k (cl_installed c) /\ cl_req c = Some s /\
  p_cert (rs_profile s) = Some kc /\ ~ cert_signed_by toy k (public_key kc).
Proof. exact w_unsigned. Qed.
Print Assumptions C70_signature_refuted.
Example C70_case : exists h c k, client_run toy w_file [] h c NDone /\ In k (cl_installed c) /\ cert_signed_by toy k (public_key x_ca_cert).
Proof. exact w_done. Qed.

(** ** C71: undefined behaviour *)
(** Only the listed causes.  (C71_profile_refuted below is a run that ends so.) *)
Theorem C71_causes_partial : forall E file pb h c, client_run E file pb h c NUB ->
  exists ci d rest c0 i w, h = (ci, Some (CData d)) :: rest /\ client_run E file pb rest c0 (NWait i w) /\ misuse E c0 ci d w.
Proof. exact client_ub. Qed.
Print Assumptions C71_causes_partial.
Theorem C71_no_hang : forall E file pb h c, ~ client_run E file pb h c NHang.
Proof. exact client_no_hang. Qed.
Print Assumptions C71_no_hang.
(** The CA offers e-mail and does not ask for the address in PROBE; the last packet is the CA's reply to NEW. *)
Theorem C71_email_refuted : exists h c x ci c' db db' effs, client_run toy w_file [] h c (NWait x WNew) /\ x_go db (x_inputs x_now 1) x = (db', effs) /\
  client_step toy c WNew ci (CData (the_put effs)) = (c', NUB).
Proof. exact w_no_email. Qed.
Print Assumptions C71_email_refuted.
(** Too many hours typed. *)
Theorem C71_hours_refuted : exists h c x p ci c' db db' effs, client_run toy w_file [] h c (NWait x (WProbe p)) /\ x_go db (x_inputs x_now 1) x = (db', effs) /\
  ci_lines ci = [bs "2562048"] /\ client_step toy c (WProbe p) ci (CData (the_put effs)) = (c', NUB).
Proof. exact w_hours. Qed.
Print Assumptions C71_hours_refuted.
(** A profile without certificate. *)
Theorem C71_profile_refuted : exists h c, client_run toy w_file [] h c NUB.
Proof. exact w_null. Qed.
Print Assumptions C71_profile_refuted.

(** ** C72: what is sent of the user's input *)
Theorem C72_probe : forall E file pb h c x p, client_run E file pb h c (NWait x (WProbe p)) -> exists m, cl_probe c = Some m /\ probes p m x.
Proof. exact client_probe. Qed.
Print Assumptions C72_probe.
(** The first CA gets exactly the parameters it asks for; the address is the typed line in lower case. *)
Theorem C72_first : forall E file pb h c i ci d c' x p, client_run E file pb h c (NWait i (WInfo [])) ->
  client_step E c (WInfo []) ci (CData d) = (c', NWait x (WProbe p)) ->
  exists m, cl_probe c' = Some m /\ probes p m x /\ Permutation (map fst m) (p_probe_keys p) /\
    (forall v, email_of m v -> exists l, (l = [] \/ In l (ci_lines ci)) /\ lower_of l v).
Proof. exact client_first_probe. Qed.
Print Assumptions C72_first.
Theorem C72_kept : forall E c w ci ev c' nx m, cl_probe c = Some m -> client_step E c w ci ev = (c', nx) -> cl_probe c' = Some m.
Proof. exact client_probe_kept. Qed.
Print Assumptions C72_kept.
(** The e-mail challenge gets the address of the PROBE. *)
Theorem C72_email : forall E file pb h c i ci d c' x s, client_run E file pb h c (NWait i WNew) ->
  client_step E c WNew ci (CData d) = (c', NWait x WChallenge) -> cl_req c' = Some s -> rs_ctype s = bs "email" ->
  exists m v, cl_probe c = Some m /\ email_of m v /\
    sends_sealed E s x [Tlv T_SelectedChallenge (bs "email"); Tlv T_ParameterKey (bs "email"); Tlv T_ParameterValue v].
Proof. exact client_email. Qed.
Print Assumptions C72_email.
(** After a redirection what the second CA asks for is not asked. *)
Theorem C72_redirected_refuted : exists h c x p, client_run toy w_file [] h c (NWait x (WProbe p)) /\ In (bs "group") (p_probe_keys p) /\
  exists pay els, i_params x = Some pay /\ parse pay = Some els /\ ~ In (Tlv T_ParameterKey (bs "group")) els.
Proof. exact w_redirected. Qed.
Print Assumptions C72_redirected_refuted.
Example C72_case : exists h c i ci d c' x p, client_run toy w_file [] h c (NWait i (WInfo [])) /\ client_step toy c (WInfo []) ci (CData d) = (c', NWait x (WProbe p)) /\
  exists m, cl_probe c' = Some m /\ email_of m (bs "alice@example").
Proof. exact w_first. Qed.
Example C72_email_case : exists h c i ci d c' x s, client_run toy w_file [] h c (NWait i WNew) /\ client_step toy c WNew ci (CData d) = (c', NWait x WChallenge) /\
  cl_req c' = Some s /\ rs_ctype s = bs "email".
Proof. exact w_mailed. Qed.

(** ** C73: an interrupted client leaves the key chain as it was *)
Theorem C73_signal_partial : forall E file pb ci h c nx, client_run E file pb ((ci, Some CSignal) :: h) c nx ->
  pib_sound pb -> key_ids_new pb h -> cl_pib c = pb /\ nx = NExit 1.
Proof. exact client_cleanup. Qed.
Print Assumptions C73_signal_partial.
(** Missing: identities without default key, of which one of two new keys stays, *)
Theorem C73_two_keys_refuted : exists ci h c nx, client_run toy w_file w_bare ((ci, Some CSignal) :: h) c nx /\ key_ids_new w_bare h /\ cl_pib c <> w_bare.
Proof. exact w_two_keys. Qed.
Print Assumptions C73_two_keys_refuted.
(** and the client leaving by itself. *)
Theorem C73_exit_refuted : exists h c, client_run toy w_file [] h c (NExit 1) /\ cl_pib c <> [].
Proof. exact w_left. Qed.
Print Assumptions C73_exit_refuted.
Example C73_case : exists ci h c nx, client_run toy w_file w_stop ((ci, Some CSignal) :: h) c nx /\ pib_sound w_stop /\ key_ids_new w_stop h /\
  exists h' c' nx', client_run toy w_file w_stop h' c' nx' /\ h = h' /\ cl_pib c' <> w_stop.
Proof. exact w_cleaned. Qed.
