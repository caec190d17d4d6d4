(** C101: names and keys of issued certificates. *)
From Verif Require Import CertNameFacts CertNameWitness.
Local Open Scope N_scope.

(** ** C101: certificate names *)
(** An issued certificate has the key name and the key of a request accepted before, is issued on a CHALLENGE Interest signed
    with that key, and its version is the clock's at that event. *)
Theorem C101_named : forall E g S (ops : store_ops S) tr st s c i x, ca_history E g ops (tr ++ [st]) s -> handles st i x -> In (EIssue c) (h_effs st) ->
  exists id key c0 new keyname issuer0 version0, In new tr /\ accepts E g id RT_NEW new key c0 /\ names_request g id x /\ signed_by E x (public_key c0) /\
    c_name c0 = keyname ++ [issuer0; version0] /\ c_name c = keyname ++ [gc (bs "NDNCERT"); version_comp (in_version i)] /\ public_key c = public_key c0.
Proof. exact names_clock. Qed.
Print Assumptions C101_named.
(** No event issues two certificates. *)
Theorem C101_one_per_event : forall E g S (ops : store_ops S) tr st s c c', ca_history E g ops (tr ++ [st]) s ->
  In (EIssue c) (h_effs st) -> In (EIssue c') (h_effs st) -> c' = c.
Proof. exact one_issue. Qed.
Print Assumptions C101_one_per_event.
(** Certificates issued at different milliseconds have different names. *)
Theorem C101_distinct_partial : forall E g S (ops : store_ops S) a st1 b st2 c s i1 x1 i2 x2 c1 c2, ca_history E g ops (a ++ st1 :: b ++ st2 :: c) s ->
  handles st1 i1 x1 -> In (EIssue c1) (h_effs st1) -> handles st2 i2 x2 -> In (EIssue c2) (h_effs st2) ->
  in_version i1 < 2 ^ 64 -> in_version i2 < 2 ^ 64 -> in_version i1 <> in_version i2 -> c_name c1 <> c_name c2.
Proof. exact names_differ. Qed.
Print Assumptions C101_distinct_partial.
(** Two certificates for one key name. *)
Example C101_case : ca_history toy w_cfg mem_ops ([w_e1; w_e2] ++ w_e3 :: [m_e4; m_e5] ++ m_e6 :: []) (fst m_ca6) /\
  handles w_e3 (x_inputs (x_now + sec 20) 3) (fst w_code) /\ In (EIssue (the_issued (snd w_ca3))) (h_effs w_e3) /\
  handles m_e6 (x_inputs (x_now + sec 50) 4) (fst m_code) /\ In (EIssue (the_issued (snd m_ca6))) (h_effs m_e6) /\
  in_version (x_inputs (x_now + sec 20) 3) <> in_version (x_inputs (x_now + sec 50) 4).
Proof. split; [exact m_h6|]. split; [left; reflexivity|]. split; [left; reflexivity|]. split; [left; reflexivity|]. split; [left; reflexivity|vm_compute; discriminate]. Qed.
(** Not in general: two certificates for different keys with one name, issued within a millisecond (or after the clock was set back). *)
Theorem C101_distinct_refuted : exists g a st1 b st2 s c1 c2, ca_history toy g mem_ops (a ++ st1 :: b ++ [st2]) s /\
  In (EIssue c1) (h_effs st1) /\ In (EIssue c2) (h_effs st2) /\ c_name c1 = c_name c2 /\ public_key c1 <> public_key c2.
Proof. exact same_name. Qed.
Print Assumptions C101_distinct_refuted.
(** A key name is not certified for one key only: the CA keeps no record of what it issued. *)
Theorem C101_one_key_refuted : exists g a st1 b st2 s c1 c2 keyname issuer v1 v2, ca_history toy g mem_ops (a ++ st1 :: b ++ [st2]) s /\
  In (EIssue c1) (h_effs st1) /\ In (EIssue c2) (h_effs st2) /\ c_name c1 = keyname ++ [issuer; v1] /\ c_name c2 = keyname ++ [issuer; v2] /\ v1 <> v2 /\
  public_key c1 <> public_key c2.
Proof. exact two_keys. Qed.
Print Assumptions C101_one_key_refuted.
(** Nor are only names certified that PROBE could have offered. *)
Theorem C101_offered_refuted : exists g tr st s c suffix kid issuer version, ca_history toy g mem_ops (tr ++ [st]) s /\ In (EIssue c) (h_effs st) /\
  c_name c = p_prefix (cfp g) ++ suffix ++ [gc (bs "KEY"); kid; issuer; version] /\
  forall params ws ns, offers toy params (assignments g) ws ns -> ~ In suffix ns.
Proof. exact not_offered. Qed.
Print Assumptions C101_offered_refuted.
