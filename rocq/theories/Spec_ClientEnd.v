(** Vocabulary for how the client reads numbers and how it ends. *)
From Verif Require Export Spec_Client.
Local Open Scope N_scope.

(** White space: blank, tab, line feed, vertical tab, form feed, carriage return. *)
Definition blank (b : byte) : Prop := In (Byte.to_N b) [32; 9; 10; 11; 12; 13].
Definition no_digit_first (s : bytes) : Prop := match s with [] => True | b :: _ => ~ 48 <= Byte.to_N b <= 57 end.
(** The line is white space, an optional sign, a decimal number below 2^64 and anything that does not continue the
    number.  A number after a minus sign is negated modulo 2^64. *)
Inductive number_line : bytes -> N -> Prop :=
| nl_plus : forall spaces sign digits tail n, Forall blank spaces -> sign = [] \/ sign = ["+"%byte] -> decimal digits n -> n < 2 ^ 64 ->
    no_digit_first tail -> number_line (spaces ++ sign ++ digits ++ tail) n
| nl_minus : forall spaces digits tail n, Forall blank spaces -> decimal digits n -> n < 2 ^ 64 ->
    no_digit_first tail -> number_line (spaces ++ "-"%byte :: digits ++ tail) ((2 ^ 64 - n) mod 2 ^ 64).

(** The user's answer is [v], in whatever case. *)
Definition confirms (ci : cinputs) (v : bytes) : Prop := exists l ls, ci_lines ci = l :: ls /\ lower_of l v.

(** Keys are named after their identities. *)
Definition pib_named (p : pib) : Prop := forall i kn sk, In i p -> In (kn, sk) (id_keys i) -> exists kid, kn = id_name i ++ [gc (bs "KEY"); kid].

(** The client waits for a profile: [full] is the certificate a redirection named, if any; otherwise [trusted] is
    the certificate from the list of CAs, if any.  It accepts the packet. *)
Definition acceptable_profile (E : env) (trusted : option cert) (full : name) (d : data) : Prop :=
  exists p k, shows E d p /\ p_cert p = Some k /\ data_verifies E d k /\
    (full = [] -> forall t, trusted = Some t -> data_verifies E d t) /\ (full <> [] -> full_name E k = full).
(** Why the client, waiting for a reply, is left without anything to wait for. *)
Inductive strands (E : env) (c : client) : waiting -> clevent -> Prop :=
| st_timeout : forall w, strands E c w CTimeout
| st_profile : forall full d, ~ acceptable_profile E (cl_trusted c) full d -> strands E c (WInfo full) (CData d)
| st_name : forall p k d names n, p_cert p = Some k -> data_verifies E d k -> probe_decode (d_content d) = Ok (names, []) ->
    In n (map fst names) -> (forall suffix, n <> p_prefix p ++ suffix) -> strands E c (WProbe p) (CData d).

(** ** A request object of the requester library *)
(** A [Request] for the CA [p] after any sequence of calls, with any arguments and packets.  Its request ID is
    8 bytes that the constructor does not set. *)
Inductive in_use (E : env) (p : profile) (rt : N) (ecdh : bytes) : rstate -> Prop :=
| iu_made : forall id0, length id0 = 8%nat -> in_use E p rt ecdh (request_init p rt ecdh id0)
| iu_gen_new : forall s ri kn sk nb na o s', in_use E p rt ecdh s -> gen_new E s ri kn sk nb na = (o, s') -> in_use E p rt ecdh s'
| iu_on_new : forall s ri d o s', in_use E p rt ecdh s -> on_new_response E s ri d = (o, s') -> in_use E p rt ecdh s'
| iu_select : forall s t o s', in_use E p rt ecdh s -> select_challenge s t = (o, s') -> in_use E p rt ecdh s'
| iu_gen_challenge : forall s ri m o s', in_use E p rt ecdh s -> gen_challenge E s ri m = (o, s') -> in_use E p rt ecdh s'
| iu_on_challenge : forall s ri d o s', in_use E p rt ecdh s -> on_challenge_response E s ri d = (o, s') -> in_use E p rt ecdh s'.
(** Its fields are of the sizes and within the ranges of their C++ types. *)
Definition in_shape (s : rstate) : Prop :=
  length (rs_id s) = 8%nat /\ length (rs_key s) = 16%nat /\ length (rs_nonce s) = 16%nat /\
  (length (rs_eiv s) = 0%nat \/ length (rs_eiv s) = 12%nat) /\ (length (rs_div s) = 0%nat \/ length (rs_div s) = 12%nat) /\
  rs_status s <= 6 /\ (- 2 ^ 31 <= rs_tries s < 2 ^ 31)%Z /\ (- 2 ^ 63 <= rs_fresh s < 2 ^ 63)%Z.
