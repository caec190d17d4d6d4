(** The user's choices in the command line client: theorem C99. *)
From Verif Require Import ClientChoiceWitness.
Local Open Scope N_scope.

(** ** C99: the client does what the user chose *)
(** The CA it starts with: typed by name after "none", without a certificate to trust, or by number, with the
    certificate of the list. *)
Theorem C99_ca : forall E file pb ci c x w, client_run E file pb [(ci, None)] c (NWait x w) -> w = WMeta [] /\ exists ca, discovers ca x /\
  ((lower_of (typed (ci_lines ci) 0) (bs "none") /\ o_of_uri E (typed (ci_lines ci) 1) = Some ca /\ cl_trusted c = None) \/
   (~ lower_of (typed (ci_lines ci) 0) (bs "none") /\ exists known v q, store_load E file = Ok known /\ number_line (typed (ci_lines ci) 0) v /\ nth_error known (N.to_nat v) = Some q /\
      ca = p_prefix q /\ cl_trusted c = p_cert q)).
Proof. exact picks_ca. Qed.
Print Assumptions C99_ca.
Example C99_ca_case : (exists ci c x, client_run toy w_file [] [(ci, None)] c (NWait x (WMeta [])) /\ cl_trusted c <> None) /\
  exists ci c x, client_run toy w_file [] [(ci, None)] c (NWait x (WMeta [])) /\ cl_trusted c = None.
Proof. exact q_takes_ca. Qed.
(** The redirection it follows: the only one, or the one whose number is typed. *)
Theorem C99_redirect : forall E file pb h c i p ci d c' x full, client_run E file pb h c (NWait i (WProbe p)) ->
  client_step E c (WProbe p) ci (CData d) = (c', NWait x (WMeta full)) ->
  c' = c /\ exists names redirects ca ls, probe_reads (d_content d) names redirects /\ picked (ci_lines ci) redirects full ls /\ full_of ca full /\ discovers ca x.
Proof. exact picks_redirect. Qed.
Print Assumptions C99_redirect.
Example C99_redirect_case : exists h c i p ci d c' x, client_run toy w_file [] h c (NWait i (WProbe p)) /\
  client_step toy c (WProbe p) ci (CData d) = (c', NWait x (WMeta (full_name toy w_cert2))).
Proof. exact q_takes_redirect. Qed.
(** The name, the hours - the first number in three lines - and the key it applies for; only without redirections. *)
Theorem C99_name : forall E file pb h c i p ci d c' x, client_run E file pb h c (NWait i (WProbe p)) ->
  client_step E c (WProbe p) ci (CData d) = (c', NWait x WNew) ->
  exists names n z ls j v kn sk, probe_reads (d_content d) names [] /\ picked (ci_lines ci) names (n, z) ls /\ settles ls 3 any j v /\ key_picked pb ci (skipn (S j) ls) n kn sk /\
    has_applied E c' x (request_init p RT_NEW (ci_ecdh ci) (ci_id0 ci)) (ci_ri ci) kn sk (ci_now ci) (ci_now ci + sec (to_i32 v * 3600)).
Proof. exact picks_name. Qed.
Print Assumptions C99_name.
Example C99_name_case : exists h c i p ci d c' x s, client_run toy w_file [] h c (NWait i (WProbe p)) /\ client_step toy c (WProbe p) ci (CData d) = (c', NWait x WNew) /\
  cl_req c' = Some s /\ rs_identity s = x_prefix ++ [gc (bs "bob")].
Proof. exact q_takes_name. Qed.
(** The challenge it selects: e-mail if the CA offers it, else the first number in three lines that is one of a
    challenge; the next line is its parameter. *)
Theorem C99_challenge : forall E file pb h c i ci d c' x, client_run E file pb h c (NWait i WNew) -> client_step E c WNew ci (CData d) = (c', NWait x WChallenge) ->
  exists s0 ecdh salt id chals s els, cl_req c = Some s0 /\ reply_reads (ri_salt0 (ci_ri ci)) (rs_id s0) (d_content d) ecdh salt id chals /\ cl_req c' = Some s /\ sends_sealed E s x els /\
    ((In (bs "email") chals /\ rs_ctype s = bs "email") \/
     (~ In (bs "email") chals /\ exists j v ks, settles (ci_lines ci) 3 (below (length chals)) j v /\ nth_error chals (N.to_nat v) = Some (rs_ctype s) /\
        step_asks (rs_ctype s) ST_BEFORE [] ks /\ step_payload (rs_ctype s) ST_BEFORE [] (map (fun k => (k, typed (skipn (S j) (ci_lines ci)) 0)) ks) els)).
Proof. exact picks_challenge. Qed.
Print Assumptions C99_challenge.
Example C99_challenge_case : exists h c i ci d c' x s, client_run toy w_file [] h c (NWait i WNew) /\ client_step toy c WNew ci (CData d) = (c', NWait x WChallenge) /\
  cl_req c' = Some s /\ rs_ctype s = bs "pin".
Proof. exact q_takes_challenge. Qed.
(** In the later rounds it stays with the challenge and sends the line typed, for what the challenge asks for. *)
Theorem C99_answer : forall E file pb h c i ci d c' x, client_run E file pb h c (NWait i WChallenge) -> client_step E c WChallenge ci (CData d) = (c', NWait x WChallenge) ->
  exists s0 s1 s els, cl_req c = Some s0 /\ on_challenge_response E s0 (ci_ri ci) d = (Ok tt, s1) /\ cl_req c' = Some s /\ sends_sealed E s x els /\ rs_ctype s = rs_ctype s0 /\ rs_ctype s1 = rs_ctype s0 /\
    (rs_status s1 <> ST_BEFORE \/ rs_ctype s1 <> bs "email" -> exists ks, step_asks (rs_ctype s1) (rs_status s1) (rs_cstatus s1) ks /\
       step_payload (rs_ctype s1) (rs_status s1) (rs_cstatus s1) (map (fun k => (k, typed (ci_lines ci) 0)) ks) els).
Proof. exact answers_challenge. Qed.
Print Assumptions C99_answer.
Example C99_answer_case : exists h c i ci d c' x, client_run toy w_file [] h c (NWait i WChallenge) /\ client_step toy c WChallenge ci (CData d) = (c', NWait x WChallenge).
Proof. exact q_answers. Qed.
(** A user who makes no valid choice, in one line for a CA, a name or a key and in three for the hours or the
    challenge, and a CA that offers nothing, end the client. *)
Theorem C99_gives_up : forall E file pb h c i w ci d, client_run E file pb h c (NWait i w) -> gives_up E pb c ci d w -> exists c', client_step E c w ci (CData d) = (c', NExit 1).
Proof. exact gives_up_exits. Qed.
Print Assumptions C99_gives_up.
Example C99_gives_up_case : exists h c i p ci d, client_run toy w_file [] h c (NWait i (WProbe p)) /\ gives_up toy [] c ci d (WProbe p).
Proof. exact q_gives_up. Qed.
