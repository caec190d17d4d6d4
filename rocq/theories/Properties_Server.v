(** C59: the CA server's certificate cache. *)
From Verif Require Import ServerFacts TraceWitness ServerWitness.
Local Open Scope N_scope.

(** ** C59: the cache of issued certificates *)
(** The cache holds the 100 certificates announced last since the process started, the latest first. *)
Theorem C59_cache : forall E g S (ops : store_ops S) a b s, ca_history E g ops (a ++ b) s ->
  a = [] \/ (exists a' st, a = a' ++ [st] /\ restarts (h_ev st)) -> Forall (fun st => ~ restarts (h_ev st)) b ->
  (exists cs, announced b cs) /\ forall cs, announced b cs -> server_cache (seen (a ++ b)) = firstn 100 (rev cs).
Proof. exact cache_holds. Qed.
Print Assumptions C59_cache.
(** What is served: the profile, or the latest cached certificate whose full name the Interest name begins. *)
Theorem C59_served : forall E profile cache n, match serve E profile cache n with
  | Some (SProfile d) => d = profile /\ begins n (d_name profile)
  | Some (SCert c) => ~ begins n (d_name profile) /\ exists newer older, cache = newer ++ c :: older /\
      begins n (full_name E c) /\ Forall (fun c' => ~ begins n (full_name E c')) newer
  | None => ~ begins n (d_name profile) /\ Forall (fun c => ~ begins n (full_name E c)) cache
  end.
Proof. exact serves. Qed.
Print Assumptions C59_served.
(** A certificate can be fetched by its name, or its full name, until a hundred more are announced or the process
    restarts: the reply is that certificate or a later one the Interest name also begins. *)
Theorem C59_fetchable : forall E g S (ops : store_ops S) a b s older c newer profile n, ca_history E g ops (a ++ b) s ->
  a = [] \/ (exists a' st, a = a' ++ [st] /\ restarts (h_ev st)) -> Forall (fun st => ~ restarts (h_ev st)) b ->
  announced b (older ++ c :: newer) -> (length newer < 100)%nat -> begins n (full_name E c) -> ~ begins n (d_name profile) ->
  exists c', serve E profile (server_cache (seen (a ++ b))) n = Some (SCert c') /\ In c' (c :: newer) /\ begins n (full_name E c').
Proof. exact fetchable. Qed.
Print Assumptions C59_fetchable.
(** With a repo: each certificate announced is handed to it once, in order. *)
Theorem C59_repo : forall E g S (ops : store_ops S) a b s, ca_history E g ops (a ++ b) s -> Forall (fun st => ~ restarts (h_ev st)) b ->
  forall cs, announced b cs -> flat_map repo_writes (seen b) = cs.
Proof. exact repo_gets. Qed.
Print Assumptions C59_repo.
Example C59_case : ca_history toy x_cfg (db_ops toy) ([] ++ [x_e1; x_e2; x_e3; x_e4]) (fst x_ca4) /\
  Forall (fun st => ~ restarts (h_ev st)) [x_e1; x_e2; x_e3; x_e4] /\ announced [x_e1; x_e2; x_e3; x_e4] ([] ++ x_cert :: []).
Proof. exact sv_case. Qed.
