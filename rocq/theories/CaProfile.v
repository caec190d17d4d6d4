(** src/detail/ca-profile.cpp *)
From Verif Require Export Json Challenge.
Local Open Scope N_scope.

(** src/detail/ca-profile.hpp:30-43 *)
Definition K_CA_PREFIX := bs "ca-prefix".
Definition K_CA_INFO := bs "ca-info".
Definition K_MAX_VALIDITY := bs "max-validity-period".
Definition K_MAX_SUFFIX := bs "max-suffix-length".
Definition K_PROBE_PARAMETERS := bs "probe-parameters".
Definition K_PROBE_PARAMETER := bs "probe-parameter-key".
Definition K_CHALLENGES := bs "supported-challenges".
Definition K_CHALLENGE := bs "challenge".
Definition K_CERTIFICATE := bs "certificate".
Definition K_FORWARDING_HINT := bs "forwarding-hint".
Definition K_REDIRECTION := bs "redirect-to".
Definition K_NAME_ASSIGNMENT := bs "name-assignment".
Definition K_POLICY_TYPE := bs "policy-type".
Definition K_POLICY_PARAM := bs "policy-param".

(** The list of probe parameter keys (ca-profile.cpp:53-63). *)
Fixpoint probe_keys_of (l : list (bytes * ptree)) : res (list bytes) :=
  match l with
  | [] => Ok []
  | (_, t) :: l' =>
      match to_lower (pt_get K_PROBE_PARAMETER [] t) with
      | [] => Exn
      | x :: k => do r <- probe_keys_of l'; Ok ((x :: k) :: r)
      end
  end.
(** The list of supported challenges (ca-profile.cpp:66-80). *)
Fixpoint challenges_of (l : list (bytes * ptree)) : res (list bytes) :=
  match l with
  | [] => Ok []
  | (_, t) :: l' =>
      match to_lower (pt_get K_CHALLENGE [] t) with
      | [] => Exn
      | x :: k => if supported (x :: k) then do r <- challenges_of l'; Ok ((x :: k) :: r) else Exn
      end
  end.

(** [CaProfile::fromJson] (ca-profile.cpp:29-90) *)
Definition profile_from_json (E : env) (j : ptree) : res profile :=
  do prefix <- of_opt (o_of_uri E (pt_get K_CA_PREFIX [] j));
  match prefix with
  | [] => Exn
  | _ :: _ =>
      do fwd0 <- of_opt (o_of_uri E (pt_get K_FORWARDING_HINT [] j));
      let fwd := match fwd0 with [] => prefix ++ [gc (bs "CA")] | _ :: _ => fwd0 end in
      let info := pt_get K_CA_INFO [] j in
      let maxv := pt_get_int K_MAX_VALIDITY 86400 j in
      let maxs := pt_get_size K_MAX_SUFFIX j in
      do keys <- (match pt_child K_PROBE_PARAMETERS j with
                  | Some t => probe_keys_of (pt_children t)
                  | None => Ok []
                  end);
      do chals <- (match pt_child K_CHALLENGES j with
                   | Some t => challenges_of (pt_children t)
                   | None => Ok []
                   end);
      let cert := match pt_get K_CERTIFICATE [] j with
                  | [] => None
                  | s => io_load E s
                  end in
      Ok (Profile prefix fwd info keys maxv maxs chals cert)
  end.

Definition list_json (key : bytes) (l : list bytes) : ptree :=
  PT [] (map (fun v => ([], pt_put key v pt_empty)) l).

(** [CaProfile::toJson] (ca-profile.cpp:92-126); the two lists are added under the empty key
    ([add_child("", ..)], lines 107 and 116), and the forwarding hint is not written. *)
Definition profile_to_json (E : env) (p : profile) : ptree :=
  let j0 := pt_put K_MAX_VALIDITY (to_string_Z (p_maxvalid p))
              (pt_put K_CA_INFO (p_info p) (pt_put K_CA_PREFIX (o_to_uri E (p_prefix p)) pt_empty)) in
  let j1 := match p_maxsuffix p with
            | Some n => pt_put K_MAX_SUFFIX (to_string_N n) j0
            | None => j0
            end in
  let j2 := match p_probe_keys p with
            | [] => j1
            | l => pt_push [] (list_json K_PROBE_PARAMETER l) j1
            end in
  let j3 := match p_challenges p with
            | [] => j2
            | l => pt_push [] (list_json K_CHALLENGE l) j2
            end in
  match p_cert p with
  | Some c => pt_put K_CERTIFICATE (io_save E c) j3
  | None => j3
  end.
