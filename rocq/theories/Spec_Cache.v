(** Vocabulary of C124: the names of Interests, and replies that are kept in the network. *)
From Verif Require Export Spec_Keychain.
Local Open Scope N_scope.

(** The ApplicationParameters element of an Interest as it is on the wire. *)
Definition params_element (x : interest) (b : bytes) : Prop := exists p, i_params x = Some p /\ b = enc_tlv (Tlv T_AppParams p).
(** The name ends in the SHA-256 digest of that element. *)
Definition digest_last (E : env) (x : interest) : Prop :=
  exists n b, params_element x b /\ i_name x = n ++ [Tlv T_ParamsDigest (o_sha256 E b)].
(** The two Interests are not a SHA-256 collision. *)
Definition no_collision (E : env) (x y : interest) : Prop :=
  forall a b, params_element x a -> params_element y b -> o_sha256 E a = o_sha256 E b -> a = b.
(** The parameters are of the size of a packet. *)
Definition in_packet (x : interest) : Prop := exists p, i_params x = Some p /\ blen p <= 8800.
(** A call made this Interest. *)
Definition makes (e : rq_call * rq_out) (x : interest) : Prop :=
  snd e = ONew (Ok (Some x)) \/ snd e = ORevoke (Some x) \/ snd e = OChallenge (Ok x).
(** None of the Interests allows its name to be a prefix (requester-request.cpp:90-238 set MustBeFresh only), so this is the Data a
    node of the network, its cache included, returns for it. *)
Definition satisfies (d : data) (x : interest) : Prop := d_name d = i_name x.
