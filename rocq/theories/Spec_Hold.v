(** Vocabulary for C126: a stranger asks for the revocation of somebody else's certificate. *)
From Verif Require Export Spec_Refused Spec_Verdict Spec_Revoke.
Local Open Scope N_scope.

(** A REVOKE Interest for [c] as requester-request.cpp:161-176 makes it, with an ephemeral key [ecdh] of one's own.  It is not signed, so that
    anybody who has seen the certificate can send it. *)
Definition strangers_revoke (E : env) (g : ca_cfg) (ecdh : bytes) (c : cert) : interest :=
  unsigned_interest E (p_prefix (cfp g) ++ [gc (bs "CA"); gc (bs "REVOKE")]) (req_encode E RT_REVOKE (o_ecdh_pub E ecdh) c).
(** Anything the CA does without being restarted and without a CHALLENGE for the request [id] that the key [pk] signed. *)
Definition undisturbed (E : env) (g : ca_cfg) {S} (ops : store_ops S) (id pk : bytes) (s s' : ca_state S) : Prop :=
  exists tr, steps E g ops s tr s' /\
    Forall (fun st => ~ restarts (h_ev st) /\ forall i x, handles st i x -> names_request g id x -> ~ signed_by E x pk) tr.
(** A CHALLENGE Interest for the request [id] with nothing in it. *)
Definition empty_challenge (E : env) (g : ca_cfg) (id sk : bytes) : interest :=
  signed_interest E sk (p_prefix (cfp g) ++ [gc (bs "CA"); gc (bs "CHALLENGE"); gc id]) [].
