(** tools/ndncert-ca-server.cpp: the whole CA server process, around the CA module and the certificate cache. *)
From Verif Require Export CaServer.
Local Open Scope N_scope.

(** [Down st]: no process runs, the storage holds [st].  [Running ca profile cache]: in the event loop
    (ndncert-ca-server.cpp:162); [cache] stays empty when a repo is configured. *)
Inductive proc (S : Type) : Type :=
| Down (st : S)
| Running (ca : ca_state S) (profile : data) (cache : list cert).
Arguments Down {S}. Arguments Running {S}.

(** What the process hands to the face (a packet of the CA module or of the server's own filter,
    ndncert-ca-server.cpp:150, 155) or to the repo (ndncert-ca-server.cpp:129, 132). *)
Inductive out : Type :=
| OModule (d : data)
| OServed (a : served)
| ORepoProfile (d : data)
| ORepoCert (c : cert).

(** [PvStart key i]: the program is started, drawing the request-ID key [key]; [PvInterest]: an Interest arrives;
    [PvKill i x n]: the process is killed while it handles [x], after the first [n] effects of the CA module;
    [PvStop]: it is killed, or ended by a signal (ndncert-ca-server.cpp:60-77), between Interests. *)
Inductive pevent : Type :=
| PvStart (key : bytes) (i : inputs)
| PvInterest (i : inputs) (x : interest)
| PvKill (i : inputs) (x : interest) (n : nat)
| PvStop.

Section WithStore.
  Context (E : env) (g : ca_cfg) {S : Type} (ops : store_ops S) (repo : bool).

  (** The server's own Interest filter (ndncert-ca-server.cpp:145-159), set only without a repo and before those of
      the CA module, which wait for the prefix registration (ca-module.cpp:80-121): it is called first. *)
  Definition filter_outs (profile : data) (cache : list cert) (x : interest) : list out :=
    if repo then []
    else if is_prefix (p_prefix (cfp g)) (i_name x)
    then match serve E profile cache (i_name x) with Some a => [OServed a] | None => [] end
    else [].
  (** The CA module's packets and the status callback's writes (ndncert-ca-server.cpp:130-134). *)
  Definition effect_outs (es : list eff) : list out :=
    flat_map (fun e => match e with
                       | EPut d => [OModule d]
                       | ECallback r => if repo && (rq_status r =? ST_SUCCESS) && (rq_type r =? RT_NEW) then [ORepoCert (rq_cert r)] else []
                       | _ => []
                       end) es.
  (** The status callback without a repo (ndncert-ca-server.cpp:137-144). *)
  Definition cache_after (es : list eff) (cache : list cert) : list cert :=
    if repo then cache
    else fold_left (fun c e => match e with ECallback r => cache_callback c r | _ => c end) es cache.

  (** [main] (ndncert-ca-server.cpp:120-164): the module is made, then the profile, then Interests are served.  An exception
      of a handler leaves [Face::processEvents] and [main], so it ends the process.  [None]: undefined behaviour, a
      handler that never returns, or an event that cannot happen in this state. *)
  Definition pstep (p : proc S) (ev : pevent) : option (proc S * list out) :=
    match p, ev with
    | Down st, PvStart key i =>
        let s0 := CaState (s_restart ops st) key None in
        match on_get_profile E g (ca_prof s0) i with
        | (es, Ok d) => Some (Running (apply_effs ops es s0) d [], if repo then [ORepoProfile d] else [])
        | (es, Exn) => Some (Down (ca_store (apply_effs ops es s0)), [])
        | (_, UB) | (_, Hang) => None
        end
    | Running ca profile cache, PvInterest i x =>
        match on_interest E g ops ca i x with
        | (es, Ok _) => Some (Running (apply_effs ops es ca) profile (cache_after es cache), filter_outs profile cache x ++ effect_outs es)
        | (es, Exn) => Some (Down (ca_store (apply_effs ops es ca)), filter_outs profile cache x ++ effect_outs es)
        | (_, UB) | (_, Hang) => None
        end
    | Running ca profile cache, PvKill i x n =>
        match on_interest E g ops ca i x with
        | (_, UB) => None
        | (es, _) => let es' := firstn n es in Some (Down (ca_store (apply_effs ops es' ca)), filter_outs profile cache x ++ effect_outs es')
        end
    | Running ca _ _, PvStop => Some (Down (ca_store ca), [])
    | _, _ => None
    end.
End WithStore.
