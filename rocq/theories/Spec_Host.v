(** Vocabulary for the statements about several CAs of one account and about ndncert-ca-status. *)
From Verif Require Export Host Spec_Trace.
Local Open Scope N_scope.

(** What the [k]-th CA sees: its file, its key and its cached profile. *)
Definition seen_by (E : env) (gs : nat -> ca_cfg) (k : nat) (h : host) : ca_state db :=
  CaState (ho_files h (ca_file E gs k)) (ho_key h k) (ho_prof h k).
(** The events of the [k]-th CA, with the effects they had. *)
Definition events_of (k : nat) (tr : list (nat * event * list eff)) : list (event * list eff) :=
  map (fun x => (snd (fst x), snd x)) (filter (fun x => Nat.eqb (fst (fst x)) k) tr).

(** ** What the tool prints *)
(** [piece] occurs in [text]. *)
Definition shown (text piece : bytes) : Prop := exists a b, text = a ++ piece ++ b.
Definition line (s : bytes) : bytes := s ++ [x0a].
(** The word for a status. *)
Definition status_word (n : N) (t : bytes) : Prop :=
  In (n, t) [(0, bs "Before challenge"); (1, bs "In challenge"); (2, bs "Pending after challenge"); (3, bs "Success"); (4, bs "Failure")] \/ (4 < n /\ t = bs "Unrecognized status").
(** The entry of a request: CA, request ID in hexadecimal, status and challenge type, then, for a request in a
    challenge, its status, remaining tries and time, and the secrets as JSON. *)
Definition describes (E : env) (r : request) (entry : bytes) : Prop :=
  exists rest, entry = line (bs "***************************************") ++
      line (bs "Request's CA name: " ++ o_to_uri E (rq_prefix r)) ++ line (bs "Request's request ID: " ++ to_hex (rq_id r)) ++
      line (bs "Request's status: " ++ (if rq_status r =? ST_BEFORE then bs "Before challenge" else bs "In challenge")) ++
      line (bs "Request's challenge type: " ++ rq_ctype r) ++ rest /\
    forall cs, rq_cs r = Some cs -> shown rest (line (bs "Challenge Status: " ++ cs_status cs)) /\
      shown rest (line (bs "Challenge remaining tries:" ++ to_string_N (cs_tries cs) ++ bs " times")) /\
      shown rest (line (bs "Challenge remaining time: " ++ to_string_Z (cs_rtime cs) ++ bs " seconds")) /\
      exists json, shown rest (line (bs "Challenge secret: " ++ json)) /\ read_json json = Some (secrets_tree (cs_secrets cs)).
