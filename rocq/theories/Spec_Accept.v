(** What the decoders accept, and what they read. *)
From Verif Require Export Spec_Codec Spec_Crypto.
Local Open Scope N_scope.

(** A field of type [ty]: every element of that type is readable, and the last one counts; without one the
    field keeps the value [old]. *)
Definition takes {A} (ty : N) (reads : bytes -> A -> Prop) (els : list tlv) (old v : A) : Prop :=
  (forall t, In t els -> t_type t = ty -> exists a, reads (t_val t) a) /\
  (count ty els = O /\ v = old \/
   exists a t b, els = a ++ t :: b /\ t_type t = ty /\ count ty b = O /\ reads (t_val t) v).
(** The values of all elements of a type, in order. *)
Definition values (ty : N) (els : list tlv) : list bytes := map t_val (filter (fun t => t_type t =? ty) els).

(** ** How values are read *)
(** A list of elements, of which the first Name counts. *)
Definition holds_name (v : bytes) (n : name) : Prop :=
  exists els t, parse v = Some els /\ get T_Name els = Some t /\ name_decode t = Some n.
(** Exactly a Name. *)
Definition is_name (v : bytes) (n : name) : Prop := exists t, block_from_value v = Some t /\ name_decode t = Some n.
Definition holds_cert (E : env) (v : bytes) (oc : option cert) : Prop :=
  exists els d c, parse v = Some els /\ get T_Data els = Some d /\ cert_decode E d = Some c /\ oc = Some c.
(** A number as the C++ type holds it. *)
Definition as_i64 (v : bytes) (z : Z) : Prop := exists n, nni_dec v = Some n /\ z = to_i64 n.
Definition as_i32 (v : bytes) (z : Z) : Prop := exists n, nni_dec v = Some n /\ z = to_i32 n.
(** So many seconds after [now]. *)
Definition secs_after (now : Z) (v : bytes) (z : Z) : Prop := exists n, nni_dec v = Some n /\
  z = (now + sec (to_i64 n))%Z /\ (- 2 ^ 63 <= sec (to_i64 n) < 2 ^ 63)%Z /\ (- 2 ^ 63 <= z < 2 ^ 63)%Z.

(** ** Messages *)
Definition error_reads (b : bytes) (code : N) (info : bytes) : Prop := exists els c, parse b = Some els /\
  only_known_critical known_error els /\ values T_ErrorCode els = [c] /\ nni_dec c = Some code /\ values T_ErrorInfo els = [info].

(** An encrypted block, for a receiver that decrypted up to [decIv] and itself encrypted up to [encIv] (each may
    be absent): the IV is 12 bytes and the tag 16; the IV's random part is not the receiver's own, and does not
    change; the counter does not go back; the tag is right; the counter can advance by the number of blocks. *)
Definition aes_reads (E : env) (key ad decIv encIv b pt iv' : bytes) : Prop := exists els p iv tag, parse b = Some els /\
  get T_EncryptedPayload els = Some p /\ get T_InitializationVector els = Some iv /\ get T_AuthenticationTag els = Some tag /\
  iv12 (t_val iv) /\ length (t_val tag) = 16%nat /\
  (encIv = [] \/ (8 <= length encIv)%nat /\ rand_part (t_val iv) <> rand_part encIv) /\
  (decIv = [] \/ (12 <= length decIv)%nat /\ rand_part (t_val iv) = rand_part decIv /\ ctr_part decIv <= ctr_part (t_val iv)) /\
  o_aes_dec E key (t_val iv) ad (t_val p) (t_val tag) = Some pt /\ length pt = length (t_val p) /\
  ctr_part (t_val iv) + blocks16 pt mod 2 ^ 32 < 2 ^ 32 - 1 /\
  iv' = rand_part (t_val iv) ++ be_enc 4 (ctr_part (t_val iv) + blocks16 pt mod 2 ^ 32).

Definition info_reads (E : env) (b : bytes) (p : profile) : Prop := exists els, parse b = Some els /\
  only_known_critical known_info els /\
  takes T_CaPrefix holds_name els [] (p_prefix p) /\ takes T_CaInfo eq els [] (p_info p) /\
  p_probe_keys p = values T_ParameterKey els /\ takes T_MaxValidityPeriod as_i64 els 0%Z (p_maxvalid p) /\
  takes T_CaCertificate (holds_cert E) els None (p_cert p) /\
  p_fwd p = [] /\ p_maxsuffix p = None /\ p_challenges p = [].

(** An offered name: all Names but the last are empty, the last is not. *)
Definition item_reads (v : bytes) (nz : name * Z) : Prop := exists els blank t, parse v = Some els /\
  only_known_critical [T_Name; T_MaxSuffixLength] els /\
  filter (fun t => t_type t =? T_Name) els = blank ++ [t] /\ (forall t', In t' blank -> name_decode t' = Some []) /\
  name_decode t = Some (fst nz) /\ fst nz <> [] /\ takes T_MaxSuffixLength as_i32 els 0%Z (snd nz).
Definition probe_reads (b : bytes) (names : list (name * Z)) (redirects : list name) : Prop := exists els, parse b = Some els /\
  only_known_critical known_probe_reply els /\
  Forall2 item_reads (values T_ProbeResponse els) names /\ Forall2 is_name (values T_ProbeRedirect els) redirects.

(** PROBE parameters: each key is directly followed by its value. *)
Definition pairs_of (items : list (tlv + bytes * bytes)) : list (bytes * bytes) :=
  flat_map (fun i => match i with inl _ => [] | inr kv => [kv] end) items.
Definition probe_params_reads (b : bytes) (m : mmap) : Prop := exists els items, parse b = Some els /\
  els = flat_map (fun i => match i with inl t => [t] | inr kv => [Tlv T_ParameterKey (fst kv); Tlv T_ParameterValue (snd kv)] end) items /\
  (forall t, In (inl t) items -> ~ critical (t_type t)) /\
  mm_sorted m /\ forall k, mm_all k m = mm_all k (pairs_of items).

(** The NEW/REVOKE reply, into buffers that held [salt0] and [id0]. *)
Definition filled (old v new : bytes) : Prop := (length v <= length old)%nat /\ new = v ++ skipn (length v) old.
Definition reply_reads (salt0 id0 b : bytes) (ecdh salt id : bytes) (chals : list bytes) : Prop := exists els s i, parse b = Some els /\
  only_known_critical known_new_reply els /\
  values T_EcdhPub els = [ecdh] /\ values T_Salt els = [s] /\ filled salt0 s salt /\ values T_RequestId els = [i] /\ filled id0 i id /\
  chals = values T_Challenge els.

(** The decrypted CHALLENGE reply. *)
Definition nonce_key : tlv := Tlv T_ParameterKey (bs "nonce").
(** Every ParameterKey is "nonce" and is directly followed by its value, or ends the message. *)
Definition with_nonces (els : list tlv) : Prop := exists items tail,
  els = flat_map (fun i : tlv + bytes => match i with inl t => [t] | inr v => [nonce_key; Tlv T_ParameterValue v] end) items ++ tail /\
  (tail = [] \/ tail = [nonce_key]) /\ (forall t, In (inl t) items -> t_type t <> T_ParameterKey /\ t_type t <> T_ParameterValue).
Definition challenge_reads (now : Z) (pt : bytes) (s s' : rstate) : Prop := exists els st, parse pt = Some els /\
  only_known_critical known_challenge_reply els /\
  values T_Status els = [st] /\ nni_dec st = Some (rs_status s') /\ rs_status s' <= 6 /\
  takes T_ChallengeStatus eq els (rs_cstatus s) (rs_cstatus s') /\ takes T_RemainingTries as_i32 els (rs_tries s) (rs_tries s') /\
  takes T_RemainingTime (secs_after now) els (rs_fresh s) (rs_fresh s') /\ takes T_IssuedCertName is_name els (rs_issued s) (rs_issued s') /\
  takes T_ForwardingHint is_name els (rs_fwd s) (rs_fwd s') /\
  takes T_ParameterValue (fun v n => length v = 16%nat /\ n = v) els (rs_nonce s) (rs_nonce s') /\
  with_nonces els.
(** Nothing else changes. *)
Definition rest_kept (s s' : rstate) : Prop :=
  rs_profile s' = rs_profile s /\ rs_type s' = rs_type s /\ rs_identity s' = rs_identity s /\ rs_id s' = rs_id s /\ rs_ctype s' = rs_ctype s /\
  rs_ecdh s' = rs_ecdh s /\ rs_key s' = rs_key s /\ rs_eiv s' = rs_eiv s /\ rs_keypair s' = rs_keypair s.
