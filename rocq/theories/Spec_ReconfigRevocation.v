(** Vocabulary for C125: the holder of a certificate revokes it while the CA changes its configuration. *)
From Verif Require Export Spec_ReconfigSession Spec_Revoke.
Local Open Scope N_scope.

Section Revocation.
  Context (E : env) {S : Type} (ops : store_ops S).
  (** A session as [revocation] (Spec_Revoke.v), with a CA that changes its configuration before, between and after the exchanges, but has
      the same key pair in each of them; compare [session_change].  The configuration given is the one in force now. *)
  Inductive revocation_change (ctype : bytes) (life : Z) (id sk : bytes) (c : cert) : option (bytes * nat * Z) -> ca_cfg -> ca_state S -> rstate -> Prop :=
  | rvc_open : forall tr g ca0 s0 rj i ca es s chals,
      reconfigured E ops tr g ca0 -> config_fits g -> revocable E g i c -> prepared E g s0 c sk -> id = id_for E (ca_idkey ca0) (c_name c) ->
      pending ops ca0 id = None -> length (ri_salt0 rj) = 32%nat ->
      revoking E g ops ca0 s0 rj i c = Some (ca, es, s, chals) -> revocation_change ctype life id sk c None g ca s
  | rvc_quiet : forall ph g ca s g' ca', revocation_change ctype life id sk c ph g ca s -> quiet_change E ops id (o_pub E sk) g ca g' ca' ->
      o_pub E (cf_sk g') = o_pub E (cf_sk g) -> revocation_change ctype life id sk c ph g' ca' s
  | rvc_start : forall g ca s ri rj i params code ca' es s', revocation_change ctype life id sk c None g ca s ->
      begins_with ctype params -> gen_code (in_words i) = Ok code -> in_script_ok i = true -> (0 <= in_t2 i)%Z ->
      be_enc 8 (ri_iv ri) <> rnd_iv i -> clock_ok rj -> round E g ops ca s ri rj i ctype params = Some (ca', es, s') ->
      revocation_change ctype life id sk c (Some (code, O, in_t2 i)) g ca' s'
  | rvc_wrong : forall code k t g ca s ri rj i given ca' es s', revocation_change ctype life id sk c (Some (code, k, t)) g ca s ->
      given <> code -> blen given < 2 ^ 30 -> (t <= in_t1 i < t + sec life - 1000 /\ 0 <= in_t2 i)%Z -> clock_ok rj ->
      round E g ops ca s ri rj i ctype [(bs "code", given)] = Some (ca', es, s') ->
      revocation_change ctype life id sk c (Some (code, Datatypes.S k, in_t2 i)) g ca' s'.
End Revocation.
