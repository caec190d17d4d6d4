(** Data types shared by the CA and the requester. *)
From Verif Require Export CryptoHelpers Multimap.
Local Open Scope N_scope.

(** [enum class ErrorCode : uint64_t] (src/detail/ndncert-common.hpp:107-118).  The values 2 (bad parameter
    format) and 9 (no available names) are printed but returned nowhere. *)
Definition NO_ERROR := 0.
Definition BAD_INTEREST_FORMAT := 1.
Definition BAD_SIGNATURE := 3.
Definition INVALID_PARAMETER := 4.
Definition NAME_NOT_ALLOWED := 5.
Definition BAD_VALIDITY_PERIOD := 6.
Definition OUT_OF_TRIES := 7.
Definition OUT_OF_TIME := 8.

(** [enum class RequestType : uint64_t] (src/detail/ndncert-common.hpp:125-130) *)
Definition RT_NEW := 1.
Definition RT_RENEW := 2.
Definition RT_REVOKE := 3.

(** [enum class Status : uint16_t] (src/detail/ca-request-state.hpp:37-43); 5 and 6 can come from
    [statusFromBlock]. *)
Definition ST_BEFORE := 0.
Definition ST_CHALLENGE := 1.
Definition ST_PENDING := 2.
Definition ST_SUCCESS := 3.
Definition ST_FAILURE := 4.

(** [statusFromBlock] (src/detail/ca-request-state.cpp:47-54) *)
Definition status_from (t : tlv) : option N :=
  match nni_dec (t_val t) with
  | None => None
  | Some n => if 6 <? n then None else Some n
  end.

(** [CaProfile] (src/detail/ca-profile.hpp:46-102).  [p_maxvalid] is in seconds. *)
Record profile : Type := Profile {
  p_prefix : name;
  p_fwd : name;
  p_info : bytes;
  p_probe_keys : list bytes;
  p_maxvalid : Z;
  p_maxsuffix : option N;
  p_challenges : list bytes;
  p_cert : option cert
}.
(** A default-constructed [CaProfile] (ca-profile.hpp:67-101; boost::chrono durations start at zero). *)
Definition empty_profile : profile := Profile [] [] [] [] 0 None [] None.

(** [ca::ChallengeState] (src/detail/ca-request-state.hpp:63-91).  [cs_secrets]: the flat property tree
    of secrets, as the list of its (key, value) children. *)
Record cstate : Type := CState {
  cs_status : bytes;
  cs_time : Z;
  cs_tries : N;
  cs_rtime : Z;
  cs_secrets : list (bytes * bytes)
}.

(** [ca::RequestState] (src/detail/ca-request-state.hpp:98-141) *)
Record request : Type := Request {
  rq_prefix : name;
  rq_id : bytes;
  rq_type : N;
  rq_status : N;
  rq_cert : cert;
  rq_key : bytes;
  rq_eiv : bytes;
  rq_div : bytes;
  rq_ctype : bytes;
  rq_cs : option cstate
}.

Definition set_status (s : N) (r : request) : request :=
  Request (rq_prefix r) (rq_id r) (rq_type r) s (rq_cert r) (rq_key r) (rq_eiv r) (rq_div r) (rq_ctype r) (rq_cs r).
Definition set_cert (c : cert) (r : request) : request :=
  Request (rq_prefix r) (rq_id r) (rq_type r) (rq_status r) c (rq_key r) (rq_eiv r) (rq_div r) (rq_ctype r) (rq_cs r).
Definition set_eiv (v : bytes) (r : request) : request :=
  Request (rq_prefix r) (rq_id r) (rq_type r) (rq_status r) (rq_cert r) (rq_key r) v (rq_div r) (rq_ctype r) (rq_cs r).
Definition set_div (v : bytes) (r : request) : request :=
  Request (rq_prefix r) (rq_id r) (rq_type r) (rq_status r) (rq_cert r) (rq_key r) (rq_eiv r) v (rq_ctype r) (rq_cs r).
Definition set_ctype (v : bytes) (r : request) : request :=
  Request (rq_prefix r) (rq_id r) (rq_type r) (rq_status r) (rq_cert r) (rq_key r) (rq_eiv r) (rq_div r) v (rq_cs r).
Definition set_cs (v : option cstate) (r : request) : request :=
  Request (rq_prefix r) (rq_id r) (rq_type r) (rq_status r) (rq_cert r) (rq_key r) (rq_eiv r) (rq_div r) (rq_ctype r) v.

(** [boost::property_tree] with flat children: [get] takes the first. *)
Fixpoint sec_get (k : bytes) (l : list (bytes * bytes)) : option bytes :=
  match l with
  | [] => None
  | (k', v) :: l' => if bytes_eqb k k' then Some v else sec_get k l'
  end.

(** Conversions between fixed-width integers. *)
Definition to_u64 (z : Z) : N := Z.to_N (z mod 2 ^ 64).
(** uint64_t -> int64_t *)
Definition to_i64 (n : N) : Z :=
  let z := (Z.of_N n mod 2 ^ 64)%Z in if (z <? 2 ^ 63)%Z then z else (z - 2 ^ 64)%Z.
(** uint64_t -> int *)
Definition to_i32 (n : N) : Z :=
  let z := (Z.of_N n mod 2 ^ 32)%Z in if (z <? 2 ^ 31)%Z then z else (z - 2 ^ 32)%Z.
(** int / int64_t -> uint64_t when stored in a size_t *)
Definition i32_of_Z (z : Z) : Z :=
  let w := (z mod 2 ^ 32)%Z in if (w <? 2 ^ 31)%Z then w else (w - 2 ^ 32)%Z.

(** [requester::Request] (src/requester-request.hpp:194-269).  [rs_ecdh]: the private key of [m_ecdh];
    [rs_keyname], [rs_sk]: [m_keyPair], [None] before [genNewInterest]. *)
Record rstate : Type := RState {
  rs_profile : profile;
  rs_type : N;
  rs_identity : name;
  rs_id : bytes;
  rs_status : N;
  rs_ctype : bytes;
  rs_cstatus : bytes;
  rs_tries : Z;
  rs_fresh : Z;
  rs_issued : name;
  rs_fwd : name;
  rs_ecdh : bytes;
  rs_key : bytes;
  rs_eiv : bytes;
  rs_div : bytes;
  rs_nonce : bytes;
  rs_keypair : option (name * bytes)
}.

Definition upd_identity v s := RState (rs_profile s) (rs_type s) v (rs_id s) (rs_status s) (rs_ctype s) (rs_cstatus s) (rs_tries s) (rs_fresh s) (rs_issued s) (rs_fwd s) (rs_ecdh s) (rs_key s) (rs_eiv s) (rs_div s) (rs_nonce s) (rs_keypair s).
Definition upd_id v s := RState (rs_profile s) (rs_type s) (rs_identity s) v (rs_status s) (rs_ctype s) (rs_cstatus s) (rs_tries s) (rs_fresh s) (rs_issued s) (rs_fwd s) (rs_ecdh s) (rs_key s) (rs_eiv s) (rs_div s) (rs_nonce s) (rs_keypair s).
Definition upd_status v s := RState (rs_profile s) (rs_type s) (rs_identity s) (rs_id s) v (rs_ctype s) (rs_cstatus s) (rs_tries s) (rs_fresh s) (rs_issued s) (rs_fwd s) (rs_ecdh s) (rs_key s) (rs_eiv s) (rs_div s) (rs_nonce s) (rs_keypair s).
Definition upd_ctype v s := RState (rs_profile s) (rs_type s) (rs_identity s) (rs_id s) (rs_status s) v (rs_cstatus s) (rs_tries s) (rs_fresh s) (rs_issued s) (rs_fwd s) (rs_ecdh s) (rs_key s) (rs_eiv s) (rs_div s) (rs_nonce s) (rs_keypair s).
Definition upd_cstatus v s := RState (rs_profile s) (rs_type s) (rs_identity s) (rs_id s) (rs_status s) (rs_ctype s) v (rs_tries s) (rs_fresh s) (rs_issued s) (rs_fwd s) (rs_ecdh s) (rs_key s) (rs_eiv s) (rs_div s) (rs_nonce s) (rs_keypair s).
Definition upd_tries v s := RState (rs_profile s) (rs_type s) (rs_identity s) (rs_id s) (rs_status s) (rs_ctype s) (rs_cstatus s) v (rs_fresh s) (rs_issued s) (rs_fwd s) (rs_ecdh s) (rs_key s) (rs_eiv s) (rs_div s) (rs_nonce s) (rs_keypair s).
Definition upd_fresh v s := RState (rs_profile s) (rs_type s) (rs_identity s) (rs_id s) (rs_status s) (rs_ctype s) (rs_cstatus s) (rs_tries s) v (rs_issued s) (rs_fwd s) (rs_ecdh s) (rs_key s) (rs_eiv s) (rs_div s) (rs_nonce s) (rs_keypair s).
Definition upd_issued v s := RState (rs_profile s) (rs_type s) (rs_identity s) (rs_id s) (rs_status s) (rs_ctype s) (rs_cstatus s) (rs_tries s) (rs_fresh s) v (rs_fwd s) (rs_ecdh s) (rs_key s) (rs_eiv s) (rs_div s) (rs_nonce s) (rs_keypair s).
Definition upd_fwd v s := RState (rs_profile s) (rs_type s) (rs_identity s) (rs_id s) (rs_status s) (rs_ctype s) (rs_cstatus s) (rs_tries s) (rs_fresh s) (rs_issued s) v (rs_ecdh s) (rs_key s) (rs_eiv s) (rs_div s) (rs_nonce s) (rs_keypair s).
Definition upd_key v s := RState (rs_profile s) (rs_type s) (rs_identity s) (rs_id s) (rs_status s) (rs_ctype s) (rs_cstatus s) (rs_tries s) (rs_fresh s) (rs_issued s) (rs_fwd s) (rs_ecdh s) v (rs_eiv s) (rs_div s) (rs_nonce s) (rs_keypair s).
Definition upd_eiv v s := RState (rs_profile s) (rs_type s) (rs_identity s) (rs_id s) (rs_status s) (rs_ctype s) (rs_cstatus s) (rs_tries s) (rs_fresh s) (rs_issued s) (rs_fwd s) (rs_ecdh s) (rs_key s) v (rs_div s) (rs_nonce s) (rs_keypair s).
Definition upd_div v s := RState (rs_profile s) (rs_type s) (rs_identity s) (rs_id s) (rs_status s) (rs_ctype s) (rs_cstatus s) (rs_tries s) (rs_fresh s) (rs_issued s) (rs_fwd s) (rs_ecdh s) (rs_key s) (rs_eiv s) v (rs_nonce s) (rs_keypair s).
Definition upd_nonce v s := RState (rs_profile s) (rs_type s) (rs_identity s) (rs_id s) (rs_status s) (rs_ctype s) (rs_cstatus s) (rs_tries s) (rs_fresh s) (rs_issued s) (rs_fwd s) (rs_ecdh s) (rs_key s) (rs_eiv s) (rs_div s) v (rs_keypair s).
Definition upd_keypair v s := RState (rs_profile s) (rs_type s) (rs_identity s) (rs_id s) (rs_status s) (rs_ctype s) (rs_cstatus s) (rs_tries s) (rs_fresh s) (rs_issued s) (rs_fwd s) (rs_ecdh s) (rs_key s) (rs_eiv s) (rs_div s) (rs_nonce s) v.
