(** Vocabulary for the statements about CHALLENGE replies. *)
From Verif Require Export ChallengeEncoder Spec_Crypto.
Local Open Scope N_scope.

(** A challenge state whose fields fit their encoding: the counters are small and, when a possession proof
    is due, the nonce is stored in hexadecimal. *)
Definition cs_ok (now : Z) (nonce : bytes) (c : cstate) : Prop :=
  blen (cs_status c) < 2 ^ 32 /\ cs_tries c < 2 ^ 31 /\ (0 <= cs_rtime c)%Z /\
  (0 <= now)%Z /\ (now + sec (cs_rtime c) < 2 ^ 63)%Z /\
  (cs_status c = bs "need-proof" -> sec_get (bs "nonce") (cs_secrets c) = Some (to_hex nonce) /\ length nonce = 16%nat).

(** The requester [s] and the CA's request [r] agree on key and ID, the requester has received every block
    the CA sent (or none), and its own stream uses another random part. *)
Definition in_sync (r : request) (rnd8 : bytes) (s : rstate) : Prop :=
  rs_key s = rq_key r /\ rs_id s = rq_id r /\ length rnd8 = 8%nat /\
  ((rq_eiv r = [] /\ rs_div s = []) \/ (length (rq_eiv r) = 12%nat /\ (rs_div s = [] \/ rs_div s = rq_eiv r))) /\
  (rs_eiv s = [] \/
   (8 <= length (rs_eiv s))%nat /\ rand_part (rs_eiv s) <> match rq_eiv r with [] => rnd8 | iv => rand_part iv end).

(** What the requester [s'] knows after reading a reply, if it was [s] before. *)
Definition told (now : Z) (r : request) (issued fwd : name) (nonce : bytes) (s s' : rstate) : Prop :=
  rs_status s' = rq_status r /\
  match rq_cs r with
  | Some c => rs_cstatus s' = cs_status c /\ rs_tries s' = Z.of_N (cs_tries c) /\
              rs_fresh s' = (now + sec (cs_rtime c))%Z /\
              rs_nonce s' = (if bytes_eqb (cs_status c) (bs "need-proof") then nonce else rs_nonce s)
  | None => rs_cstatus s' = rs_cstatus s /\ rs_tries s' = rs_tries s /\ rs_fresh s' = rs_fresh s /\
            rs_nonce s' = rs_nonce s
  end /\
  (issued = [] -> rs_issued s' = rs_issued s /\ rs_fwd s' = rs_fwd s) /\
  (issued <> [] -> rs_issued s' = issued /\ rs_fwd s' = fwd).
(** The rest of the requester is as it was. *)
Definition same_session (s s' : rstate) : Prop :=
  rs_profile s' = rs_profile s /\ rs_type s' = rs_type s /\ rs_identity s' = rs_identity s /\ rs_id s' = rs_id s /\
  rs_ctype s' = rs_ctype s /\ rs_ecdh s' = rs_ecdh s /\ rs_key s' = rs_key s /\ rs_eiv s' = rs_eiv s /\
  rs_keypair s' = rs_keypair s.
