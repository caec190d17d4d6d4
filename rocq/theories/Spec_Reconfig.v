(** Vocabulary for a CA that is started again with another configuration.

    A server that is stopped and started again reads its configuration file anew (tools/ndncert-ca-server.cpp:124,
    src/ca-module.cpp:46-55).  Its database is named after its prefix (src/detail/ca-sqlite.cpp:84-99), so the requests
    it finds there are those accepted under any earlier configuration of the same prefix.  A configuration of another
    prefix uses another database: it is another CA (C83 is about the exceptions).

    The file with the trust anchors of the possession challenge is read for every CHALLENGE Interest
    (src/ca-module.cpp:418, src/challenge/challenge-possession.cpp:87-89), so its content may change at any time.

    The CA asks the key chain for its default certificate and signs with its default key whenever it needs them
    (src/ca-module.cpp:125-126, 135, 151, 202, 211-214, 364, 466, 490, 530), so the owner may give it another one at any time. *)
From Verif Require Export Spec_Trace.
Local Open Scope N_scope.

Definition with_anchors (a : res (list cert)) (g : ca_cfg) : ca_cfg :=
  CaCfg (cf g) (ChalCfg (cc_script (cf_chal g)) a) (cf_cert g) (cf_sk g) (cf_keyloc g).

(** The CA has another certificate, key and key locator. *)
Definition with_key (c : cert) (sk : bytes) (keyloc : name) (g : ca_cfg) : ca_cfg := CaCfg (cf g) (cf_chal g) c sk keyloc.

(** Events with the configuration each of them was handled with.  The configuration changes at a restart, the trust anchors
    of the possession challenge and the CA's certificate and key between any two events. *)
Inductive csteps {S} (E : env) (ops : store_ops S) : ca_cfg -> ca_state S -> list (ca_cfg * hstep S) -> ca_cfg -> ca_state S -> Prop :=
| csteps_nil : forall g s, csteps E ops g s [] g s
| csteps_event : forall g s ev es s1 tr g2 s2, step E g ops s ev = Some (s1, es) -> csteps E ops g s1 tr g2 s2 ->
    csteps E ops g s ((g, HStep s ev es s1) :: tr) g2 s2
| csteps_change : forall g g1 s key tr g2 s2, p_prefix (cfp g1) = p_prefix (cfp g) -> csteps E ops g1 (restart ops key s) tr g2 s2 ->
    csteps E ops g s ((g1, HStep s (EvRestart key) [] (restart ops key s)) :: tr) g2 s2
| csteps_file : forall g a s tr g2 s2, csteps E ops (with_anchors a g) s tr g2 s2 -> csteps E ops g s tr g2 s2
| csteps_key : forall g c sk kl s tr g2 s2, csteps E ops (with_key c sk kl g) s tr g2 s2 -> csteps E ops g s tr g2 s2.

(** What a CA did from its first start on, under one configuration after another: [g] is in force in the end. *)
Record reconfigured {S} (E : env) (ops : store_ops S) (tr : list (ca_cfg * hstep S)) (g : ca_cfg) (s : ca_state S) : Prop := {
  rc_codec : codec_laws E;
  rc_prefix : name_fits (p_prefix (cfp g));
  rc_store : back_end E S ops;
  rc_steps : exists g0 key, csteps E ops g0 (ca_init ops key) tr g s
}.

(** No request is accepted under [id]. *)
Definition no_add_in {S} (id : bytes) (tr : list (ca_cfg * hstep S)) : Prop := Forall (fun gs => ~ adds id (snd gs)) tr.
