(** Vocabulary for C121: an honest requester whose CA changes its configuration. *)
From Verif Require Export Spec_Reconfig Spec_Requester.
Local Open Scope N_scope.

Section Session.
  Context (E : env) {S : Type} (ops : store_ops S).

  (** Anything else the CA does in between, as in [quiet] (Spec_Requester.v), with changes of its configuration. *)
  Definition quiet_change (id pk : bytes) (g : ca_cfg) (s : ca_state S) (g' : ca_cfg) (s' : ca_state S) : Prop :=
    exists tr, csteps E ops g s tr g' s' /\
      Forall (fun e => (forall i x, handles (snd e) i x -> names_request (fst e) id x -> ~ signed_by E x pk) /\
                       (restarts (h_ev (snd e)) -> durable E S ops)) tr.

  (** A session as in Spec_Requester.v, with a CA that changes its configuration before, between and after the exchanges, but has the
      same key pair in each of them.  The configuration given is the one in force now. *)
  Inductive session_change (ctype : bytes) (life : Z) (id sk : bytes) (creq : cert) : option (bytes * nat * Z) -> ca_cfg -> ca_state S -> rstate -> Prop :=
  | sc_open : forall tr g ca0 s0 ri rj i keyname nb na ca es s chals,
      reconfigured E ops tr g ca0 -> config_fits g -> applies E g s0 ri i keyname sk nb na -> creq = cert_request E sk ri keyname nb na ->
      id = id_for E (ca_idkey ca0) (c_name creq) -> pending ops ca0 id = None -> length (ri_salt0 rj) = 32%nat ->
      opening E g ops ca0 s0 ri rj i keyname sk nb na = Some (ca, es, s, chals) -> session_change ctype life id sk creq None g ca s
  | sc_quiet : forall ph g ca s g' ca', session_change ctype life id sk creq ph g ca s -> quiet_change id (o_pub E sk) g ca g' ca' ->
      o_pub E (cf_sk g') = o_pub E (cf_sk g) -> session_change ctype life id sk creq ph g' ca' s
  | sc_start : forall g ca s ri rj i params code ca' es s', session_change ctype life id sk creq None g ca s ->
      begins_with ctype params -> gen_code (in_words i) = Ok code -> in_script_ok i = true -> (0 <= in_t2 i)%Z ->
      be_enc 8 (ri_iv ri) <> rnd_iv i -> clock_ok rj -> round E g ops ca s ri rj i ctype params = Some (ca', es, s') ->
      session_change ctype life id sk creq (Some (code, O, in_t2 i)) g ca' s'
  | sc_wrong : forall code k t g ca s ri rj i given ca' es s', session_change ctype life id sk creq (Some (code, k, t)) g ca s ->
      given <> code -> blen given < 2 ^ 30 -> (t <= in_t1 i < t + sec life - 1000 /\ 0 <= in_t2 i)%Z -> clock_ok rj ->
      round E g ops ca s ri rj i ctype [(bs "code", given)] = Some (ca', es, s') ->
      session_change ctype life id sk creq (Some (code, Datatypes.S k, in_t2 i)) g ca' s'.
End Session.
