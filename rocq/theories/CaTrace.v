(** Histories of a CA: Interests in any order, crashes at any effect, restarts. *)
From Verif Require Export CaModule.
Local Open Scope N_scope.

(** [EvInterest]: an Interest is handled; if the handler throws, whoever runs the event loop goes on.
    [EvCrash i x n key]: the process dies while handling [x], after the first [n] effects, and is started
    again; [EvRestart key]: it is started again between Interests; [key]: the random request-ID key the new
    process draws (ca-module.cpp:55).  [EvProfile]: the application calls getCaProfileData. *)
Inductive event : Type :=
| EvInterest (i : inputs) (x : interest)
| EvCrash (i : inputs) (x : interest) (n : nat) (key : bytes)
| EvRestart (key : bytes)
| EvProfile (i : inputs).

Section WithStore.
  Context (E : env) (g : ca_cfg) {S : Type} (ops : store_ops S).

  Definition ca_init (key : bytes) : ca_state S := CaState (s_empty ops) key None.
  Definition restart (key : bytes) (s : ca_state S) : ca_state S :=
    CaState (s_restart ops (ca_store s)) key None.

  (** [None]: the code has undefined behaviour (or never returns), so there is no next state. *)
  Definition step (s : ca_state S) (ev : event) : option (ca_state S * list eff) :=
    match ev with
    | EvInterest i x =>
        match on_interest E g ops s i x with
        | (es, Ok _) | (es, Exn) => Some (apply_effs ops es s, es)
        | (_, UB) | (_, Hang) => None
        end
    | EvCrash i x n key =>
        match on_interest E g ops s i x with
        | (es, UB) => None
        | (es, _) => let es' := firstn n es in Some (restart key (apply_effs ops es' s), es')
        end
    | EvRestart key => Some (restart key s, [])
    | EvProfile i =>
        match on_get_profile E g (ca_prof s) i with
        | (es, UB) | (es, Hang) => None
        | (es, _) => Some (apply_effs ops es s, es)
        end
    end.

  (** The history: each event with the effects it had. *)
  Fixpoint run (s : ca_state S) (evs : list event) : option (ca_state S * list (event * list eff)) :=
    match evs with
    | [] => Some (s, [])
    | ev :: evs' =>
        match step s ev with
        | None => None
        | Some (s', es) =>
            match run s' evs' with
            | None => None
            | Some (s'', h) => Some (s'', (ev, es) :: h)
            end
        end
    end.
End WithStore.
