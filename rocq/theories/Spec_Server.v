(** Vocabulary for the statements about the CA server's certificate cache. *)
From Verif Require Export Spec_Trace CaServer.
Local Open Scope N_scope.

(** What the server sees of a history. *)
Definition seen {S} (tr : list (hstep S)) : list (event * list eff) := map (fun st => (h_ev st, h_effs st)) tr.
(** A certificate is issued and the reply announcing it is sent, in one event. *)
Definition announces {S} (st : hstep S) (c : cert) : Prop := In (EIssue c) (h_effs st) /\ answered st.
(** The certificates announced, in order. *)
Inductive announced {S} : list (hstep S) -> list cert -> Prop :=
| an_nil : announced [] []
| an_yes : forall st tr c cs, announces st c -> announced tr cs -> announced (st :: tr) (c :: cs)
| an_no : forall st tr cs, (forall c, ~ announces st c) -> announced tr cs -> announced (st :: tr) cs.
(** [n] is a prefix of [m]. *)
Definition begins (n m : name) : Prop := exists rest, m = n ++ rest.
