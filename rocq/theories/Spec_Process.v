(** Vocabulary for the statements about the CA server process. *)
From Verif Require Export Spec_Server ServerProcess.
Local Open Scope N_scope.

(** One event in the life of a server: the state before, what is handed out, the state after. *)
Record sstep (S : Type) : Type := SStep { p_pre : proc S; p_ev : pevent; p_outs : list out; p_post : proc S }.
Arguments SStep {S}. Arguments p_pre {S}. Arguments p_ev {S}. Arguments p_outs {S}. Arguments p_post {S}.

Inductive psteps {S} (E : env) (g : ca_cfg) (ops : store_ops S) (repo : bool) : proc S -> list (sstep S) -> proc S -> Prop :=
| psteps_nil : forall p, psteps E g ops repo p [] p
| psteps_cons : forall p ev os p1 tr p2, pstep E g ops repo p ev = Some (p1, os) -> psteps E g ops repo p1 tr p2 ->
    psteps E g ops repo p (SStep p ev os p1 :: tr) p2.

(** [tr] is everything that happens to a CA server from before its first start, to state [p]: starts, Interests,
    exceptions, kills and stops. *)
Record server_history {S} (E : env) (g : ca_cfg) (ops : store_ops S) (repo : bool) (tr : list (sstep S)) (p : proc S) : Prop := {
  sh_codec : codec_laws E;
  sh_prefix : name_fits (p_prefix (cfp g));
  sh_store : back_end E S ops;
  sh_steps : psteps E g ops repo (Down (s_empty ops)) tr p
}.

(** The CA module's own packets. *)
Definition module_packets (os : list out) : list data := flat_map (fun o => match o with OModule d => [d] | _ => [] end) os.
(** The names of all packets sent to the network. *)
Definition packets (E : env) (os : list out) : list name :=
  flat_map (fun o => match o with
                     | OModule d => [d_name d]
                     | OServed (SProfile d) => [d_name d]
                     | OServed (SCert c) => [full_name E c]
                     | ORepoProfile _ | ORepoCert _ => []
                     end) os.
(** What is written to the repo. *)
Definition published (os : list out) : list cert := flat_map (fun o => match o with ORepoCert c => [c] | _ => [] end) os.

(** The Interests handled, each with the CA module's replies: by a server, and in a history of the module. *)
Definition server_dealings {S} (tr : list (sstep S)) : list (inputs * interest * list data) :=
  flat_map (fun st => match p_ev st with
                      | PvInterest i x | PvKill i x _ => [(i, x, module_packets (p_outs st))]
                      | _ => []
                      end) tr.
Definition module_dealings {S} (tr : list (hstep S)) : list (inputs * interest * list data) :=
  flat_map (fun st => match h_ev st with
                      | EvInterest i x | EvCrash i x _ _ => [(i, x, puts (h_effs st))]
                      | _ => []
                      end) tr.
(** The event starts the program. *)
Definition is_start (ev : pevent) : Prop := exists key i, ev = PvStart key i.
(** The only prefix the server registers with the forwarder (ca-module.cpp:78-81; the filter of ndncert-ca-server.cpp:145 is
    set without registering its prefix): the network brings it Interests below this name only. *)
Definition registered (g : ca_cfg) : name := p_prefix (cfp g) ++ [gc (bs "CA")].
