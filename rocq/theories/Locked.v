(** src/detail/ca-sqlite.cpp: a CA whose database cannot be written, or neither read nor written, for a while. *)
From Verif Require Export CaTrace.
Local Open Scope N_scope.

Section WithStore.
  Context (E : env) (g : ca_cfg) {S : Type} (ops : store_ops S).

  (** The database while [sqlite3_step] returns an error for every change (SQLITE_BUSY while another process reads or writes it, no space,
      read-only): [addRequest] throws (ca-sqlite.cpp:189-192), [updateRequest] calls [addRequest], which throws (ca-sqlite.cpp:223-225), and
      [deleteRequest] does not look at the result (ca-sqlite.cpp:293-300).  [rd]: it can be read.  Otherwise (while another process has an
      exclusive lock) [getRequest] throws (ca-sqlite.cpp:159-161), as it does for a request that is not stored. *)
  Definition locked (rd : bool) : store_ops S :=
    StoreOps S (s_empty ops) (fun st id => if rd then s_get ops st id else None) (fun _ _ => None) (fun _ _ => None) (fun st _ => st) (s_list ops) (s_list_ca ops) (s_restart ops).

  Definition is_update (e : eff) : bool := match e with EUpdate _ => true | _ => false end.
  Fixpoint before_update (es : list eff) : list eff :=
    match es with
    | [] => []
    | e :: es' => if is_update e then [] else e :: before_update es'
    end.
  (** The handlers of an Interest: [onNewRenewRevoke] catches the exception of [addRequest] (ca-module.cpp:346-353), [onChallenge] does not catch
      that of [updateRequest] (ca-module.cpp:458); [getCertificateRequest] catches that of [getRequest] (ca-module.cpp:507-514).  [EDelete] stands for the call of [deleteRequest], which has no effect. *)
  Definition on_interest_locked (rd : bool) (s : ca_state S) (i : inputs) (x : interest) : hout :=
    let (es, o) := on_interest E g (locked rd) s i x in
    if existsb is_update es then (before_update es, Exn) else (es, o).

  (** [WFine]: the database can be written; [WLocked]: an Interest arrives while it cannot; [WLockedCrash]: and the process dies
      while it handles the Interest, after the first [n] effects, and is started again when the database can be used. *)
  Inductive wevent : Type :=
  | WFine (ev : event)
  | WLocked (rd : bool) (i : inputs) (x : interest)
  | WLockedCrash (rd : bool) (i : inputs) (x : interest) (n : nat) (key : bytes).
  (** As [step] (CaTrace.v). *)
  Definition wstep (s : ca_state S) (w : wevent) : option (ca_state S * list eff) :=
    match w with
    | WFine ev => step E g ops s ev
    | WLocked rd i x =>
        match on_interest_locked rd s i x with
        | (es, Ok _) | (es, Exn) => Some (apply_effs (locked rd) es s, es)
        | (_, UB) | (_, Hang) => None
        end
    | WLockedCrash rd i x n key =>
        match on_interest_locked rd s i x with
        | (es, UB) => None
        | (es, _) => let es' := firstn n es in Some (restart ops key (apply_effs (locked rd) es' s), es')
        end
    end.
End WithStore.
