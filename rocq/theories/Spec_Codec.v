(** Vocabulary for the statements about the wire formats. *)
From Verif Require Export Types.
Local Open Scope N_scope.

(** Byte strings and names that fit into one TLV. *)
Definition fits (b : bytes) : Prop := blen b < 2 ^ 64.
Definition name_fits (n : name) : Prop := wf_name n /\ fits (name_wire n).

(** How many of the elements have a given type. *)
Definition count (ty : N) (els : list tlv) : nat := length (filter (fun t => t_type t =? ty) els).

(** The NDN rule: types up to 31 and odd types are critical. *)
Definition critical (ty : N) : Prop := ty <= 31 \/ N.Odd ty.

(** No element with a critical type other than the known ones. *)
Definition only_known_critical (known : list N) (els : list tlv) : Prop :=
  forall t, In t els -> critical (t_type t) -> In (t_type t) known.

(** The elements the decoders of the protocol messages know. *)
Definition known_error := [T_ErrorCode; T_ErrorInfo].
Definition known_info := [T_CaPrefix; T_CaInfo; T_ParameterKey; T_MaxValidityPeriod; T_CaCertificate].
Definition known_probe_params := [T_ParameterKey; T_ParameterValue].
Definition known_probe_reply := [T_ProbeResponse; T_ProbeRedirect].
Definition known_new_params := [T_EcdhPub; T_CertRequest].
Definition known_revoke_params := [T_EcdhPub; T_CertToRevoke].
Definition known_new_reply := [T_EcdhPub; T_Salt; T_RequestId; T_Challenge].
Definition known_challenge_reply :=
  [T_Status; T_ChallengeStatus; T_RemainingTries; T_RemainingTime; T_IssuedCertName; T_ForwardingHint;
   T_ParameterKey; T_ParameterValue].

(** A call that did not return normally. *)
Definition fails {A} (r : res A) : Prop := forall a, r <> Ok a.

(** An element of a NEW/REVOKE request carries a certificate: its value is a list of elements whose first
    Data element is the certificate. *)
Definition carries_cert (E : env) (t : tlv) (c : cert) : Prop :=
  exists inner d, parse (t_val t) = Some inner /\ get T_Data inner = Some d /\ cert_decode E d = Some c.

(** What NEW/REVOKE parameters must look like: exactly one ECDH element, exactly one certificate element
    (of the type [cty] belonging to the request type), no other critical element. *)
Definition request_params (E : env) (cty : N) (b ecdh : bytes) (c : cert) : Prop :=
  exists els t, parse b = Some els /\
    count T_EcdhPub els = 1%nat /\ In (Tlv T_EcdhPub ecdh) els /\
    count cty els = 1%nat /\ In t els /\ t_type t = cty /\ carries_cert E t c /\
    only_known_critical [T_EcdhPub; cty] els.

(** The certificate element of the parameters for each request type. *)
Definition cert_type (rt cty : N) : Prop :=
  (rt = RT_NEW /\ cty = T_CertRequest) \/ (rt = RT_REVOKE /\ cty = T_CertToRevoke).

(** [z] is what a signed integer of [k] bits holds of [n]: the number in its range that is [n] modulo 2^k. *)
Definition held (k n z : Z) : Prop := (- 2 ^ (k - 1) <= z < 2 ^ (k - 1))%Z /\ exists q, (z = n + q * 2 ^ k)%Z.
(** A maximum suffix length as it is read back from a PROBE reply: narrowed to [int], 0 if absent. *)
Definition narrow_suffix (max : option N) : Z := match max with Some k => to_i32 k | None => 0%Z end.

(** An offered name that can be encoded in a PROBE reply. *)
Definition probe_fits (max : option N) (n : name) : Prop :=
  name_fits n /\ fits (enc_tlvs (name_tlv n :: match max with Some k => [Tlv T_MaxSuffixLength (nni_enc k)] | None => [] end)).

(** A Salt or RequestId element that is longer than the buffer it is copied into. *)
Definition too_long (salt0 id0 : bytes) (t : tlv) : Prop :=
  (t_type t = T_Salt /\ (length salt0 < length (t_val t))%nat) \/
  (t_type t = T_RequestId /\ (length id0 < length (t_val t))%nat).
