(** src/detail/ca-storage.hpp, ca-memory.cpp, ca-sqlite.cpp *)
From Verif Require Export JsonText.
Local Open Scope N_scope.

(** The operations of [CaStorage] (ca-storage.hpp:30-58) on a state of type [S]; [None] = throws. *)
Record store_ops (S : Type) : Type := StoreOps {
  s_empty : S;
  s_get : S -> bytes -> option request;
  s_add : S -> request -> option S;
  s_update : S -> request -> option S;
  s_delete : S -> bytes -> S;
  s_list : S -> option (list request);
  s_list_ca : S -> name -> option (list request);
  s_restart : S -> S      (* what a new process finds *)
}.
Arguments s_empty {S} s.
Arguments s_get {S} s.
Arguments s_add {S} s.
Arguments s_update {S} s.
Arguments s_delete {S} s.
Arguments s_list {S} s.
Arguments s_list_ca {S} s.
Arguments s_restart {S} s.

(** ** CaMemory: [std::map<RequestId, RequestState>] (ca-memory.hpp:56), as its elements in key order *)
Definition mem : Type := list (bytes * request).

Fixpoint mem_find (id : bytes) (m : mem) : option request :=
  match m with
  | [] => None
  | (k, r) :: m' => if bytes_eqb id k then Some r else mem_find id m'
  end.
(** insertion or assignment in a sorted map *)
Fixpoint mem_set (id : bytes) (r : request) (m : mem) : mem :=
  match m with
  | [] => [(id, r)]
  | (k, r') :: m' =>
      if bytes_eqb id k then (id, r) :: m'
      else if bytes_ltb id k then (id, r) :: (k, r') :: m'
      else (k, r') :: mem_set id r m'
  end.
(** [getRequest] (ca-memory.cpp:33-41) *)
Definition mem_get (m : mem) (id : bytes) : option request := mem_find id m.
(** [addRequest] (ca-memory.cpp:43-50) *)
Definition mem_add (m : mem) (r : request) : option mem :=
  match mem_find (rq_id r) m with
  | Some _ => None
  | None => Some (mem_set (rq_id r) r m)
  end.
(** [updateRequest] (ca-memory.cpp:52-56) *)
Definition mem_update (m : mem) (r : request) : option mem := Some (mem_set (rq_id r) r m).
(** [deleteRequest] (ca-memory.cpp:58-62) *)
Definition mem_delete (m : mem) (id : bytes) : mem := filter (fun kr => negb (bytes_eqb id (fst kr))) m.
(** [listAllRequests] (ca-memory.cpp:64-84) *)
Definition mem_list (m : mem) : option (list request) := Some (map snd m).
Definition mem_list_ca (m : mem) (n : name) : option (list request) :=
  Some (filter (fun r => name_eqb (rq_prefix r) n) (map snd m)).

Definition mem_ops : store_ops mem :=
  StoreOps mem [] mem_get mem_add mem_update mem_delete mem_list mem_list_ca (fun _ => []).

(** ** CaSqlite: the rows of table RequestStates (ca-sqlite.cpp:56-77), in the order of their primary key.
    A column that was never bound (NULL) reads back as 0 or the empty string.  [r_time]: challenge_tp, [None]
    for an empty text (on which fromIsoString throws); [r_secrets]: challenge_secrets, the JSON text. *)
Record row : Type := Row {
  r_id : bytes;
  r_ca : bytes;
  r_status : Z;
  r_type : Z;
  r_cert : bytes;
  r_ctype : bytes;
  r_cstatus : bytes;
  r_time : option Z;
  r_tries : Z;
  r_rtime : Z;
  r_secrets : bytes;
  r_key : bytes;
  r_eiv : bytes;
  r_div : bytes
}.
Definition db : Type := list row.

(** [convertJson2String] and [convertString2Json] (ca-sqlite.cpp:39-54).  [write_json] does not throw on a flat map
    (JsonTextFacts.secrets_json); [None]: [read_json] throws, as it does on an empty text. *)
Definition secrets_text (l : list (bytes * bytes)) : bytes := match write_json (secrets_tree l) with Ok t => t | _ => [] end.
Definition text_secrets (s : bytes) : option (list (bytes * bytes)) := option_map secrets_of_tree (read_json s).

(** [time::toIsoString] keeps microseconds (ca-sqlite.cpp:185, 208). *)
Definition trunc_us (t : Z) : Z := (Z.quot t 1000 * 1000)%Z.

(** Reading a row back (ca-sqlite.cpp:139-157); [Certificate(Block)] and [Name(Block)] may throw, and so
    may the conversions of the challenge columns when challenge_type is not empty.  The integer columns are
    read as [int]. *)
Definition row_to_request (E : env) (w : row) : option request :=
  match dec_elem (r_ca w), dec_elem (r_cert w) with
  | Some (nt, _), Some (ct, _) =>
      match name_decode nt, cert_decode E ct with
      | Some n, Some c =>
          let base := Request n (r_id w) (to_u64 (r_type w)) (Z.to_N (r_status w mod 2 ^ 16)) c (r_key w)
                              (r_eiv w) (r_div w) (r_ctype w) None in
          match r_ctype w with
          | [] => Some base
          | _ :: _ =>
              match r_time w, text_secrets (r_secrets w) with
              | Some t, Some s =>
                  Some (set_cs (Some (CState (r_cstatus w) t (to_u64 (r_tries w)) (r_rtime w) s)) base)
              | _, _ => None
              end
          end
      | _, _ => None
      end
  | _, _ => None
  end.

(** [addRequest] (ca-sqlite.cpp:164-193): the challenge columns, challenge_type included, stay NULL when
    there is no challenge state.  Integers are bound as [int]. *)
Definition row_of_new (E : env) (r : request) : row :=
  let '(ty, st, tp, tr, rt, se) :=
    match rq_cs r with
    | Some cs => (rq_ctype r, cs_status cs, Some (trunc_us (cs_time cs)), to_i32 (cs_tries cs),
                  i32_of_Z (cs_rtime cs), secrets_text (cs_secrets cs))
    | None => ([], [], None, 0%Z, 0%Z, [])
    end in
  Row (rq_id r) (name_wire (rq_prefix r)) (to_i32 (rq_status r)) (to_i32 (rq_type r))
      (enc_tlv (cert_tlv E (rq_cert r))) ty st tp tr rt se (rq_key r) (rq_eiv r) (rq_div r).

(** [updateRequest] (ca-sqlite.cpp:195-226): overwrites the mutable columns of the matching row. *)
Definition row_update (r : request) (w : row) : row :=
  let '(st, tp, tr, rt, se) :=
    match rq_cs r with
    | Some cs => (cs_status cs, Some (trunc_us (cs_time cs)), to_i32 (cs_tries cs),
                  i32_of_Z (cs_rtime cs), secrets_text (cs_secrets cs))
    | None => ([], None, 0%Z, 0%Z, [])
    end in
  Row (r_id w) (r_ca w) (to_i32 (rq_status r)) (r_type w) (r_cert w) (rq_ctype r) st tp tr rt se (r_key w)
      (rq_eiv r) (rq_div r).

Definition db_row (d : db) (id : bytes) : option row := find (fun w => bytes_eqb id (r_id w)) d.
(** [getRequest] (ca-sqlite.cpp:128-162) *)
Definition db_get (E : env) (d : db) (id : bytes) : option request :=
  match db_row d id with Some w => row_to_request E w | None => None end.
(** [addRequest] (ca-sqlite.cpp:164-193): the unique index makes a duplicate fail. *)
Definition db_add (E : env) (d : db) (r : request) : option db :=
  match db_row d (rq_id r) with
  | Some _ => None
  | None => Some (d ++ [row_of_new E r])
  end.
(** [updateRequest] (ca-sqlite.cpp:195-226): an UPDATE that matches no row still returns SQLITE_DONE, so
    nothing is added. *)
Definition db_update (d : db) (r : request) : option db :=
  Some (map (fun w => if bytes_eqb (rq_id r) (r_id w) then row_update r w else w) d).
(** [deleteRequest] (ca-sqlite.cpp:293-300) *)
Definition db_delete (d : db) (id : bytes) : db := filter (fun w => negb (bytes_eqb id (r_id w))) d.
Fixpoint all_some {A} (l : list (option A)) : option (list A) :=
  match l with
  | [] => Some []
  | Some a :: l' => match all_some l' with Some r => Some (a :: r) | None => None end
  | None :: _ => None
  end.
(** [listAllRequests] (ca-sqlite.cpp:228-291) *)
Definition db_list (E : env) (d : db) : option (list request) := all_some (map (row_to_request E) d).
Definition db_list_ca (E : env) (d : db) (n : name) : option (list request) :=
  all_some (map (row_to_request E) (filter (fun w => bytes_eqb (r_ca w) (name_wire n)) d)).

Definition db_ops (E : env) : store_ops db :=
  StoreOps db [] (db_get E) (db_add E) db_update db_delete (db_list E) (db_list_ca E) (fun d => d).
