(** The CA server process of tools/ndncert-ca-server.cpp and its prefix registration at the local forwarder. *)
From Verif Require Export ServerProcess.
Local Open Scope N_scope.

(** Whether the forwarder has answered the registration that the constructor of the CA module asks for (ca-module.cpp:60, 80-112). *)
Inductive reg : Type := Waiting | Registered | Refused.
(** [RvEvent]: an event of the process; [RvAnswer ok]: the forwarder's answer, or its failure to give one in time ([ok = false]). *)
Inductive revent : Type :=
| RvEvent (ev : pevent)
| RvAnswer (ok : bool).

Section WithStore.
  Context (E : env) (g : ca_cfg) {S : Type} (ops : store_ops S) (repo : bool).
  (** [CaModule::registerPrefix] (ca-module.cpp:73-112) sets the Interest filters of the module when the registration has succeeded; when it fails,
      [onRegisterFailed] (ca-module.cpp:517-521) writes a line to the log, and that is all.  The server's own filter (ndncert-ca-server.cpp:145-159)
      is set in any case.  While the module has no filters, an Interest reaches the server's own only.  The registration state of a process that does
      not run means nothing. *)
  Definition rstep (s : reg * proc S) (ev : revent) : option ((reg * proc S) * list out) :=
    match s, ev with
    | (Waiting, Running ca profile cache), RvAnswer ok => Some ((if ok then Registered else Refused, Running ca profile cache), [])
    | _, RvAnswer _ => None
    | (Waiting, Running ca profile cache), RvEvent (PvInterest _ x) | (Refused, Running ca profile cache), RvEvent (PvInterest _ x) =>
        Some (s, filter_outs E g repo profile cache x)
    | (Waiting, Running ca profile cache), RvEvent (PvKill _ x _) | (Refused, Running ca profile cache), RvEvent (PvKill _ x _) =>
        Some ((Waiting, Down (ca_store ca)), filter_outs E g repo profile cache x)
    | (r, p), RvEvent ev =>
        match pstep E g ops repo p ev with
        | Some (p', os) => Some ((match ev with PvStart _ _ => Waiting | _ => r end, p'), os)
        | None => None
        end
    end.
End WithStore.
