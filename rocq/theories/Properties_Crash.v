(** C105: which Interests bring the CA down. *)
From Verif Require Import CrashFacts CrashWitness.
Local Open Scope N_scope.

(** ** C105: the Interests whose handling fails are exactly those listed *)
(** An exception leaves the handler exactly for the Interests listed under [throws]. *)
Theorem C105_throws : forall E g S (ops : store_ops S) s i x, ca_at E g ops s -> short_names g ops s -> suffix_limit_sane g ->
  snd (on_interest E g ops s i x) = Exn <-> throws E g ops s i x.
Proof. exact @throws_iff. Qed.
Print Assumptions C105_throws.
Example C105_case : ca_at toy w_cfg mem_ops (fst n_ca2) /\ short_names w_cfg mem_ops (fst n_ca2) /\ suffix_limit_sane w_cfg /\ throws toy w_cfg mem_ops (fst n_ca2) k_i (fst k_chal) /\
  snd (on_interest toy w_cfg mem_ops (fst n_ca2) (x_inputs (x_now + sec 3500) 3) (fst n_chal2)) = Ok tt.
Proof. exact k_case. Qed.
(** The behaviour is undefined exactly for a request ID of another length than eight bytes, and for a probe that redirects to a CA
    configured without certificate. *)
Theorem C105_faults : forall E g S (ops : store_ops S) s i x file, ca_at E g ops s -> cc_anchors (cf_chal g) = possession_anchors E file ->
  snd (on_interest E g ops s i x) = UB <-> corrupts g x.
Proof. exact faults_read. Qed.
Print Assumptions C105_faults.
Example C105_faults_case : ca_at toy w_cfg mem_ops (fst n_ca2) /\ cc_anchors (cf_chal w_cfg) = possession_anchors toy (read_json f_file) /\ corrupts w_cfg k_id.
Proof. exact (conj k_at2 (conj k_anchors k_corrupts)). Qed.
(** The handler does not return exactly when a code is asked for and the generator's words are all among the rejected ones. *)
Theorem C105_hangs : forall E g S (ops : store_ops S) s i x file, ca_at E g ops s -> short_names g ops s -> cc_anchors (cf_chal g) = possession_anchors E file ->
  snd (on_interest E g ops s i x) = Hang <-> stalls E g ops s i x.
Proof. exact hangs_read. Qed.
Print Assumptions C105_hangs.
Example C105_hangs_case : ca_at toy w_cfg mem_ops (fst w_ca1) /\ short_names w_cfg mem_ops (fst w_ca1) /\ cc_anchors (cf_chal w_cfg) = possession_anchors toy (read_json f_file) /\
  stalls toy w_cfg mem_ops (fst w_ca1) (with_words [4294967295; 4294000000] k_i) (fst n_chal1).
Proof. exact k_stall_case. Qed.
(** Every other Interest is handled to the end. *)
Theorem C105_served : forall E g S (ops : store_ops S) s i x file, ca_at E g ops s -> short_names g ops s -> suffix_limit_sane g ->
  cc_anchors (cf_chal g) = possession_anchors E file ->
  snd (on_interest E g ops s i x) = Ok tt <-> ~ throws E g ops s i x /\ ~ corrupts g x /\ ~ stalls E g ops s i x.
Proof. exact served. Qed.
Print Assumptions C105_served.
