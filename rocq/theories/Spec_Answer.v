(** Vocabulary for the statements about the replies a requester acts on. *)
From Verif Require Export Spec_Accept Spec_Requester Requester.
Local Open Scope N_scope.

(** A reply that verifies under the certificate of the profile and reports no error. *)
Definition sound_reply (E : env) (p : profile) (d : data) : Prop := exists c, p_cert p = Some c /\ ~ bad_reply E c d.
(** Key agreement with the CA's ephemeral key, the salt and the request ID of the reply. *)
Definition agrees (E : env) (ecdh peer salt id key : bytes) : Prop := exists rc secret rc', rc <> 0%Z /\ rc' <> 0%Z /\
  o_ecdh E ecdh peer = (rc, secret) /\ o_hkdf E secret salt id = (rc', key).
(** The request after an accepted NEW or REVOKE reply: its ID and key are new, nothing else. *)
Definition joined (id key : bytes) (s s' : rstate) : Prop :=
  rs_id s' = id /\ rs_key s' = key /\
  rs_profile s' = rs_profile s /\ rs_type s' = rs_type s /\ rs_identity s' = rs_identity s /\ rs_status s' = rs_status s /\ rs_ctype s' = rs_ctype s /\
  rs_cstatus s' = rs_cstatus s /\ rs_tries s' = rs_tries s /\ rs_fresh s' = rs_fresh s /\ rs_issued s' = rs_issued s /\ rs_fwd s' = rs_fwd s /\
  rs_ecdh s' = rs_ecdh s /\ rs_eiv s' = rs_eiv s /\ rs_div s' = rs_div s /\ rs_nonce s' = rs_nonce s /\ rs_keypair s' = rs_keypair s.
(** Elements of a decrypted CHALLENGE reply [els] that are read without complaint. *)
Definition fine_item (now : Z) (els : list tlv) (t : tlv) : Prop :=
  (t_type t = T_Status -> exists f n, get T_Status els = Some f /\ nni_dec (t_val f) = Some n /\ n <= 6) /\
  (t_type t = T_RemainingTries -> exists z, as_i32 (t_val t) z) /\ (t_type t = T_RemainingTime -> exists z, secs_after now (t_val t) z) /\
  (t_type t = T_IssuedCertName \/ t_type t = T_ForwardingHint -> exists n, is_name (t_val t) n) /\
  (critical (t_type t) -> In (t_type t) known_challenge_reply) /\ t_type t <> T_ParameterKey /\ t_type t <> T_ParameterValue.
Definition fine_part (now : Z) (els before : list tlv) : Prop := exists items,
  before = flat_map (fun i : tlv + bytes => match i with inl t => [t] | inr v => [nonce_key; Tlv T_ParameterValue v] end) items /\
  (forall t, In (inl t) items -> fine_item now els t) /\ (forall v, In (inr v) items -> length v = 16%nat).
(** A remaining time that, added to the clock, is no [int64_t] number of nanoseconds. *)
Definition out_of_range (now : Z) (v : bytes) : Prop := exists n, nni_dec v = Some n /\ forall z, ~ secs_after now v z.
