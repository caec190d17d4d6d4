(** tools/ndncert-ca-server.cpp: writing to a repo that may be out of reach. *)
From Verif Require Export ServerProcess.
Local Open Scope N_scope.

(** ndncert-ca-server.cpp:129, 132 *)
Definition is_write (o : out) : bool := match o with ORepoProfile _ | ORepoCert _ => true | OModule _ | OServed _ => false end.
(** [writeDataToRepo] (ndncert-ca-server.cpp:44-58) for what one event hands to the repo (ndncert-ca-server.cpp:129, 132).  [up]: the
    connection is made within five seconds.  Else the function says so on standard error and returns false, which its callers
    do not look at.  An event writes once at most (C112_one), so one [up] per event will do.  What the repo does with
    a packet, and a connection that breaks while it is written, are left out. *)
Definition write_to_repo (up : bool) (os : list out) (contents : list out) : list out :=
  if up then contents ++ filter is_write os else contents.
(** What the repo has been given after the events with these outputs. *)
Definition repo_contents (h : list (list out * bool)) : list out :=
  fold_left (fun contents e => write_to_repo (snd e) (fst e) contents) h [].
