(** Sample configuration files and profile lists. *)
From Verif Require Export ConfigFacts Samples.
Local Open Scope N_scope.

Definition k_obj (l : list (bytes * ptree)) : ptree := PT [] l.
Definition k_arr (l : list ptree) : ptree := PT [] (map (fun t => ([], t)) l).
Definition k_str (s : bytes) : ptree := pt_leaf s.
Definition k_cert : bytes := Eval vm_compute in io_save toy x_ca_cert.
Definition k_redirect (cert prefix : bytes) : ptree :=
  k_obj [(bs "ca-prefix", k_str prefix); (bs "certificate", k_str cert); (bs "policy-type", k_str (bs "param")); (bs "policy-param", k_str (bs "team=a&site=x"))].
Definition k_json (redirect : ptree) : ptree :=
  k_obj [(bs "ca-prefix", k_str (bs "/example/ca")); (bs "ca-info", k_str (bs "Example CA")); (bs "max-validity-period", k_str (bs "+3600"));
         (bs "max-suffix-length", k_str (bs "3"));
         (bs "probe-parameters", k_arr [k_obj [(bs "probe-parameter-key", k_str (bs "Full-Name"))]; k_obj [(bs "probe-parameter-key", k_str (bs "email"))]]);
         (bs "supported-challenges", k_arr [k_obj [(bs "challenge", k_str (bs "PIN"))]; k_obj [(bs "challenge", k_str (bs "email"))]]);
         (bs "redirect-to", k_arr [redirect]);
         (bs "name-assignment", k_obj [(bs "param", k_str (bs "/email/name")); (bs "random", k_str [])])].
Definition k_prefix : name := [gc (bs "example"); gc (bs "ca")].
Definition k_profile : profile :=
  Profile k_prefix (k_prefix ++ [gc (bs "CA")]) (bs "Example CA") [bs "full-name"; bs "email"] 3600 (Some 3) [bs "pin"; bs "email"] None.
Definition k_config (oc : option cert) : config :=
  Config k_profile [(oc, PParam [(bs "site", bs "x"); (bs "team", bs "a")])] [Assign AParam [bs "email"; bs "name"]; Assign ARandom []].
Lemma k_loads : config_load toy (Some (k_json (k_redirect k_cert (bs "/ndn/site")))) = Ok (k_config (Some x_ca_cert)).
Proof. vm_compute. reflexivity. Qed.
Lemma k_bad_json : map (config_load toy) [None; Some (k_json (k_redirect k_cert (bs "/ndn/other"))); Some (k_obj [(bs "ca-prefix", k_str (bs "/a"))]);
    Some (k_obj [(bs "ca-info", k_str (bs "x")); (bs "supported-challenges", k_arr [k_obj [(bs "challenge", k_str (bs "pin"))]])]);
    Some (k_obj [(bs "ca-prefix", k_str (bs "/a")); (bs "supported-challenges", k_arr [k_obj [(bs "challenge", k_str (bs "sms"))]])])] = [Exn; Exn; Exn; Exn; Exn].
Proof. vm_compute. reflexivity. Qed.
(** A redirection whose certificate cannot be decoded. *)
Lemma k_null : config_load toy (Some (k_json (k_redirect (bs "?") []))) = Ok (k_config None).
Proof. vm_compute. reflexivity. Qed.
Lemma null_certificate : exists j c p, config_load toy (Some j) = Ok c /\ In (None, p) (cf_redirect c).
Proof. exists (k_json (k_redirect (bs "?") [])), (k_config None), (PParam [(bs "site", bs "x"); (bs "team", bs "a")]). split; [exact k_null|]. left. reflexivity. Qed.
Lemma crash : exists j, config_load toy (Some j) = UB.
Proof. exists (k_json (k_redirect (bs "?") (bs "/ndn/site"))). vm_compute. reflexivity. Qed.

Lemma k_profile_loads : profile_from_json toy (k_json (k_redirect k_cert (bs "/ndn/site"))) = Ok k_profile.
Proof. vm_compute. reflexivity. Qed.
Lemma export_loses : exists j p, profile_from_json toy j = Ok p /\ p_challenges p <> [] /\
  exists q, profile_from_json toy (profile_to_json toy p) = Ok q /\ p_challenges q = [] /\ p_probe_keys q = [] /\ q <> p.
Proof.
  exists (k_json (k_redirect k_cert (bs "/ndn/site"))), k_profile. split; [exact k_profile_loads|]. split; [discriminate|].
  eexists. split; [vm_compute; reflexivity|]. split; [reflexivity|]. split; [reflexivity|]. discriminate.
Qed.
Definition k_plain : ptree := k_obj [(bs "ca-prefix", k_str (bs "/example/ca")); (bs "certificate", k_str k_cert)].
Definition k_plain_profile : profile := Profile k_prefix (k_prefix ++ [gc (bs "CA")]) [] [] 86400 None [] (Some x_ca_cert).
Lemma k_plain_loads : profile_from_json toy k_plain = Ok k_plain_profile.
Proof. vm_compute. reflexivity. Qed.
Lemma k_list_loads : store_load toy (Some (k_obj [(bs "ca-list", k_arr [k_plain])])) = Ok [k_plain_profile].
Proof. vm_compute. reflexivity. Qed.

(** Adding, replacing and removing. *)
Definition k_p (n info : bytes) : profile := Profile [gc n] [] info [] 0 None [] None.
Definition k_calls : list store_op :=
  [SAdd (k_p (bs "a") (bs "1")); SAdd (k_p (bs "b") (bs "2")); SAdd (k_p (bs "c") (bs "3")); SRemove [gc (bs "a")]; SAdd (k_p (bs "b") (bs "4")); SAdd (k_p (bs "a") (bs "5"))].
Lemma k_calls_run : fold_left store_do k_calls [] = [k_p (bs "b") (bs "4"); k_p (bs "c") (bs "3"); k_p (bs "a") (bs "5")].
Proof. vm_compute. reflexivity. Qed.
