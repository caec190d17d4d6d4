(** Several CAs of one user account: the database files (src/detail/ca-sqlite.cpp:79-122), and the tool that lists
    pending requests (tools/ndncert-ca-status.cpp, src/detail/ca-request-state.cpp). *)
From Verif Require Export CaTrace.
Local Open Scope N_scope.

(** ** Files *)
(** The file, in $HOME/.ndncert, that a CA without an explicit path uses (ca-sqlite.cpp:88-99).  [CaModule] never
    passes a path (ca-module.cpp:52). *)
Definition db_file (E : env) (n : name) : bytes :=
  map (fun b => if byte_eqb b x2f then x5f else b) (o_to_uri E n) ++ bs ".db".
(** The rows in each file; a file that is missing is created with an empty table (ca-sqlite.cpp:56-77, 103-120). *)
Definition files : Type := bytes -> db.
Definition put_file (p : bytes) (d : db) (f : files) : files := fun q => if bytes_eqb q p then d else f q.
(** [CaSqlite] over the file [p] (ca-sqlite.cpp:103-116). *)
Definition file_ops (E : env) (p : bytes) : store_ops files :=
  StoreOps files (fun _ => []) (fun f => db_get E (f p)) (fun f r => option_map (fun d => put_file p d f) (db_add E (f p) r))
    (fun f r => option_map (fun d => put_file p d f) (db_update (f p) r)) (fun f id => put_file p (db_delete (f p) id) f)
    (fun f => db_list E (f p)) (fun f => db_list_ca E (f p)) (fun f => f).

(** ** CAs sharing the files *)
(** Each CA is its own process (tools/ndncert-ca-server.cpp) with its own request-ID key and cached profile.  A handler is taken to run without
    another process touching its file in between. *)
Record host : Type := Host { ho_files : files; ho_key : nat -> bytes; ho_prof : nat -> option data }.
Definition at_index {A} (k : nat) (a : A) (f : nat -> A) : nat -> A := fun j => if Nat.eqb j k then a else f j.

Section WithCas.
  Context (E : env) (gs : nat -> ca_cfg).

  Definition ca_file (k : nat) : bytes := db_file E (p_prefix (cfp (gs k))).
  (** An event of the [k]-th CA. *)
  Definition host_step (h : host) (k : nat) (ev : event) : option (host * list eff) :=
    match step E (gs k) (file_ops E (ca_file k)) (CaState (ho_files h) (ho_key h k) (ho_prof h k)) ev with
    | None => None
    | Some (s, es) => Some (Host (ca_store s) (at_index k (ca_idkey s) (ho_key h)) (at_index k (ca_prof s) (ho_prof h)), es)
    end.
  Fixpoint host_run (h : host) (evs : list (nat * event)) : option (host * list (nat * event * list eff)) :=
    match evs with
    | [] => Some (h, [])
    | (k, ev) :: evs' =>
        match host_step h k ev with
        | None => None
        | Some (h1, es) => match host_run h1 evs' with
                           | None => None
                           | Some (h2, tr) => Some (h2, (k, ev, es) :: tr)
                           end
        end
    end.
  (** A new account: no database files, the processes just started. *)
  Definition host_init (keys : nat -> bytes) : host := Host (fun _ => []) keys (fun _ => None).
End WithCas.

(** ** ndncert-ca-status *)
Definition NL : bytes := [x0a].
(** [statusToString] (ca-request-state.cpp:29-45) *)
Definition status_text (s : N) : bytes :=
  if s =? ST_BEFORE then bs "Before challenge"
  else if s =? ST_CHALLENGE then bs "In challenge"
  else if s =? ST_PENDING then bs "Pending after challenge"
  else if s =? ST_SUCCESS then bs "Success"
  else if s =? ST_FAILURE then bs "Failure"
  else bs "Unrecognized status".

Section WithTexts.
  (** [iso]: [time::toIsoString]; [show]: how a certificate is printed, indented. *)
  Context (E : env) (iso : Z -> bytes) (show : cert -> bytes).

  (** [operator<<] (ca-request-state.cpp:70-93) *)
  Definition print_request (r : request) : bytes :=
    bs "Request's CA name: " ++ o_to_uri E (rq_prefix r) ++ NL ++
    bs "Request's request ID: " ++ to_hex (rq_id r) ++ NL ++
    bs "Request's status: " ++ status_text (rq_status r) ++ NL ++
    bs "Request's challenge type: " ++ rq_ctype r ++ NL ++
    match rq_cs r with
    | Some cs =>
        bs "Challenge Status: " ++ cs_status cs ++ NL ++
        bs "Challenge remaining tries:" ++ to_string_N (cs_tries cs) ++ bs " times" ++ NL ++
        bs "Challenge remaining time: " ++ to_string_Z (cs_rtime cs) ++ bs " seconds" ++ NL ++
        bs "Challenge last update: " ++ iso (cs_time cs) ++ NL ++
        bs "Challenge secret: " ++ secrets_text (cs_secrets cs) ++ NL
    | None => []
    end ++
    bs "Certificate:" ++ NL ++ show (rq_cert r).
  Definition stars : bytes := bs "***************************************" ++ NL.
  (** [main] (ndncert-ca-status.cpp:31-74) with the argument [arg]; the tool only reads. *)
  Definition ca_status (f : files) (arg : bytes) : res bytes :=
    do n <- of_opt (o_of_uri E arg);
    do l <- of_opt (db_list E (f (db_file E n)));
    Ok (bs "The pending requests are :" ++ NL ++ flat_map (fun r => stars ++ print_request r ++ stars) l).
End WithTexts.
