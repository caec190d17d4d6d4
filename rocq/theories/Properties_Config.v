(** C49-C52: JSON configuration and the requester's profile list.  Vocabulary in Spec_Config.v. *)
From Coq Require Import Sorting.Sorted.
From Verif Require Import ConfigWitness.
Local Open Scope N_scope.

(** ** C49: profiles survive JSON export and import *)
(** These fields do; the probe keys, the challenges and the forwarding hint are always lost. *)
Theorem C49_fields_partial : forall E j p, codec_laws E -> profile_from_json E j = Ok p ->
  exists q, profile_from_json E (profile_to_json E p) = Ok q /\ p_prefix q = p_prefix p /\ p_info q = p_info p /\
    p_maxvalid q = p_maxvalid p /\ p_maxsuffix q = p_maxsuffix p /\ p_cert q = p_cert p /\
    p_probe_keys q = [] /\ p_challenges q = [] /\ p_fwd q = p_prefix p ++ [gc (bs "CA")].
Proof. exact export_keeps. Qed.
Print Assumptions C49_fields_partial.
Theorem C49_when_partial : forall E j p, codec_laws E -> profile_from_json E j = Ok p ->
  (profile_from_json E (profile_to_json E p) = Ok p <->
   p_probe_keys p = [] /\ p_challenges p = [] /\ p_fwd p = p_prefix p ++ [gc (bs "CA")]).
Proof. exact export_iff. Qed.
Print Assumptions C49_when_partial.
Example C49_case : codec_laws toy /\ profile_from_json toy (k_json (k_redirect k_cert (bs "/ndn/site"))) = Ok k_profile /\
  profile_from_json toy k_plain = Ok k_plain_profile /\ p_probe_keys k_plain_profile = [] /\ p_challenges k_plain_profile = [] /\
  p_fwd k_plain_profile = p_prefix k_plain_profile ++ [gc (bs "CA")].
Proof. exact (conj (laws_codec _ toy_laws) (conj k_profile_loads (conj k_plain_loads (conj eq_refl (conj eq_refl eq_refl))))). Qed.
Theorem C49_lists_refuted : exists j p, profile_from_json toy j = Ok p /\ p_challenges p <> [] /\
  exists q, profile_from_json toy (profile_to_json toy p) = Ok q /\ p_challenges q = [] /\ p_probe_keys q = [] /\ q <> p.
Proof. exact export_loses. Qed.
Print Assumptions C49_lists_refuted.

(** ** C50: saved profile lists can be loaded again *)
(** No list that was saved can be loaded. *)
Theorem C50_never_loads_refuted : forall E l, store_load E (Some (store_save E l)) = Exn.
Proof. exact saved_not_loaded. Qed.
Print Assumptions C50_never_loads_refuted.
(** What can be loaded: an object with a "ca-list" of profiles that have certificates. *)
Theorem C50_load_partial : forall E j l, store_load E (Some j) = Ok l <->
  exists t, first_child j (bs "ca-list") t /\ Forall2 (fun it p => profile_read E (snd it) p /\ p_cert p <> None) (pt_children t) l.
Proof. exact load_iff. Qed.
Print Assumptions C50_load_partial.
Example C50_case : store_load toy (Some (k_obj [(bs "ca-list", k_arr [k_plain])])) = Ok [k_plain_profile].
Proof. exact k_list_loads. Qed.

(** ** C51: the profile store is keyed by CA prefix *)
Theorem C51_keyed : forall ops, let l := fold_left store_do ops [] in
  NoDup (map p_prefix l) /\ (forall p, In p l <-> last_added ops p) /\
  exists ks, Forall2 (fun p k => entered ops (p_prefix p) k) l ks /\ StronglySorted lt ks.
Proof. exact store_keyed. Qed.
Print Assumptions C51_keyed.
Example C51_case : fold_left store_do k_calls [] = [k_p (bs "b") (bs "4"); k_p (bs "c") (bs "3"); k_p (bs "a") (bs "5")].
Proof. exact k_calls_run. Qed.

(** ** C52: configuration loading validates *)
(** A configuration is accepted exactly if it is as described, with exactly these contents.  The description allows a
    redirection without a certificate (next theorem). *)
Theorem C52_accepted_partial : forall E j c, config_load E (Some j) = Ok c <-> config_read E j c.
Proof. exact config_iff. Qed.
Print Assumptions C52_accepted_partial.
Theorem C52_profile : forall E j p, profile_from_json E j = Ok p <-> profile_read E j p.
Proof. exact profile_iff. Qed.
Print Assumptions C52_profile.
Example C52_case : config_load toy (Some (k_json (k_redirect k_cert (bs "/ndn/site")))) = Ok (k_config (Some x_ca_cert)) /\
  map (config_load toy) [None; Some (k_json (k_redirect k_cert (bs "/ndn/other"))); Some (k_obj [(bs "ca-prefix", k_str (bs "/a"))]);
    Some (k_obj [(bs "ca-info", k_str (bs "x")); (bs "supported-challenges", k_arr [k_obj [(bs "challenge", k_str (bs "pin"))]])]);
    Some (k_obj [(bs "ca-prefix", k_str (bs "/a")); (bs "supported-challenges", k_arr [k_obj [(bs "challenge", k_str (bs "sms"))]])])] = [Exn; Exn; Exn; Exn; Exn].
Proof. exact (conj k_loads k_bad_json). Qed.
(** A redirection whose certificate cannot be decoded is accepted if no prefix is given, *)
Theorem C52_certificate_refuted : exists j c p, config_load toy (Some j) = Ok c /\ In (None, p) (cf_redirect c).
Proof. exact null_certificate. Qed.
Print Assumptions C52_certificate_refuted.
(** and dereferences a null pointer if one is given. *)
Theorem C52_crash_refuted : exists j, config_load toy (Some j) = UB.
Proof. exact crash. Qed.
Print Assumptions C52_crash_refuted.
(** Nothing else crashes. *)
Theorem C52_crash_only : forall E file, config_load E file = UB -> exists j l k t cs ps, file = Some j /\ items j (bs "redirect-to") l /\
  In (k, t) l /\ text t (bs "certificate") cs /\ cs <> [] /\ io_load E cs = None /\ text t (bs "ca-prefix") ps /\ ps <> [].
Proof. exact config_ub. Qed.
Print Assumptions C52_crash_only.
