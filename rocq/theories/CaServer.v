(** tools/ndncert-ca-server.cpp: the certificate cache used when no repo is configured. *)
From Verif Require Export CaTrace.
Local Open Scope N_scope.

(** MAX_CACHED_CERT_NUM (ndncert-ca-server.cpp:42) *)
Definition max_cached : nat := 100.

(** The status update callback (ndncert-ca-server.cpp:137-144): front = most recent. *)
Definition cache_callback (cache : list cert) (r : request) : list cert :=
  if (rq_status r =? ST_SUCCESS) && (rq_type r =? RT_NEW) then
    let c := rq_cert r :: cache in
    if Nat.ltb max_cached (length c) then removelast c else c
  else cache.

(** The callbacks run by one event (ca-module.cpp:366-368, 468-470); the cache is lost when the process ends. *)
Definition cache_event (cache : list cert) (ev : event * list eff) : list cert :=
  match fst ev with
  | EvCrash _ _ _ _ | EvRestart _ => []
  | EvInterest _ _ | EvProfile _ =>
      fold_left (fun c e => match e with ECallback r => cache_callback c r | _ => c end) (snd ev) cache
  end.
Definition server_cache (h : list (event * list eff)) : list cert := fold_left cache_event h [].

(** The callback when a repo is configured (ndncert-ca-server.cpp:130-134): what is handed to
    [writeDataToRepo], which ignores connection errors. *)
Definition repo_writes (ev : event * list eff) : list cert :=
  flat_map (fun e => match e with
                     | ECallback r => if (rq_status r =? ST_SUCCESS) && (rq_type r =? RT_NEW) then [rq_cert r] else []
                     | _ => []
                     end) (snd ev).

Inductive served : Type := SProfile (d : data) | SCert (c : cert).

(** The Interest filter (ndncert-ca-server.cpp:145-159); [None]: no answer. *)
Definition serve (E : env) (profile : data) (cache : list cert) (n : name) : option served :=
  if is_prefix n (d_name profile) then Some (SProfile profile)
  else match find (fun c => is_prefix n (full_name E c)) cache with
       | Some c => Some (SCert c)
       | None => None
       end.
