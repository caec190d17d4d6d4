(** Vocabulary for C127: the command line client whose CA changes its configuration. *)
From Verif Require Export Spec_ReconfigSession Spec_ClientSession Spec_Server.
Local Open Scope N_scope.

(** As [in_round] (Spec_ClientSession.v), with a CA that changes its configuration but has the same key pair in each of
    them: the client has sent the CHALLENGE Interest [x], with the parameters [params], and still has its key.  The
    configuration [g] is the one in force now. *)
Definition in_round_change {S} (E : env) (ops : store_ops S) (ctype : bytes) (life : Z) (id sk : bytes) (creq : cert) (ph : option (bytes * nat * Z))
  (ri : rinputs) (params : mmap) (g : ca_cfg) (ca : ca_state S) (c : client) (x : interest) : Prop :=
  (exists s s1 m s2, session_change E ops ctype life id sk creq ph g ca s /\ select_challenge s ctype = (Ok m, s1) /\
     gen_challenge E s1 ri params = (Ok x, s2) /\ cl_req c = Some s2) /\
  exists identity kid issuer version, c_name creq = identity ++ [gc (bs "KEY"); kid; issuer; version] /\ holds (cl_pib c) identity kid sk.
