(** Vocabulary for the statement that a secret code can hardly be guessed. *)
From Verif Require Export Spec_Secrecy.
Local Open Scope N_scope.

(** An attacker chooses each event -- Interests, crashes, restarts, clocks, draws -- by the packets sent so far.
    [play] is how it chooses; the first event of the run is given. *)
Definition follows {S} (play : list (list data) -> event) (tr : list (hstep S)) : Prop :=
  forall a st b, tr = a ++ st :: b -> a <> [] -> h_ev st = play (sent a).
(** The CA waits for this code. *)
Definition waits_for {S} (ops : store_ops S) (s : ca_state S) (id code : bytes) : Prop :=
  exists r cs, pending ops s id = Some r /\ rq_cs r = Some cs /\ sec_get (bs "code") (cs_secrets cs) = Some code.

Section Guess.
  Context (E : env) (g : ca_cfg) {S : Type} (ops : store_ops S).
  (** The run begins in state [s] with the Interest [x], for which the random words [ws] are drawn; after that the
      CA waits for [code] from the requester of [id], and the attacker plays on.  Every code that is compared is
      answered, and the request is not opened anew. *)
  Record run_with (play : list (list data) -> event) (s : ca_state S) (i : inputs) (x : interest) (id code : bytes) (start : hstep S) (tr : list (hstep S)) : Prop := {
    rw_draw : exists ws, gen_code ws = Ok code /\ h_ev start = EvInterest (with_words ws i) x;
    rw_steps : exists s', steps E g ops s (start :: tr) s';
    rw_plays : follows play (start :: tr);
    rw_waits : waits_for ops (h_post start) id code;
    rw_answered : forall st, In st tr -> (exists given, compares E g ops id st given) -> answered st;
    rw_no_add : no_add id tr
  }.
  (** The last event of the run is the first that presents the code. *)
  Definition presented (play : list (list data) -> event) (s : ca_state S) (i : inputs) (x : interest) (id code : bytes) : Prop :=
    exists start a st, run_with play s i x id code start (a ++ [st]) /\ compares E g ops id st code /\ forall st0, In st0 a -> ~ compares E g ops id st0 code.
  (** The last event of the run issues a certificate for the request. *)
  Definition obtained (play : list (list data) -> event) (s : ca_state S) (i : inputs) (x : interest) (id code : bytes) : Prop :=
    exists start a st i' x' c, run_with play s i x id code start (a ++ [st]) /\ handles st i' x' /\ names_request g id x' /\ In (EIssue c) (h_effs st).
End Guess.
