(** Vocabulary for the statement about an attacker who has many tries, at as many requests as it likes. *)
From Verif Require Export Spec_Guess.
Local Open Scope N_scope.

(** The event with the random word a secret code is made from. *)
Definition dealt (w : N) (ev : event) : event :=
  match ev with
  | EvInterest i x => EvInterest (with_words [w] i) x
  | EvCrash i x n key => EvCrash (with_words [w] i) x n key
  | EvRestart key => EvRestart key
  | EvProfile i => EvProfile (with_words [w] i)
  end.
(** The words generateSecretCode does not draw again: 4294 for each of the million codes. *)
Definition drawable (w : N) : Prop := w < 4294000000.
(** The attacker chooses each event by the packets sent so far, except for the random word, which is the next on the tape. *)
Definition played {S} (play : list (list data) -> event) (tape : list N) (tr : list (hstep S)) : Prop :=
  forall a st b, tr = a ++ st :: b -> exists w, nth_error tape (length a) = Some w /\ h_ev st = dealt w (play (sent a)).
Section Odds.
  Context (E : env) (g : ca_cfg) {S : Type} (ops : store_ops S).
  (** No request waits for a code yet. *)
  Definition no_codes (s : ca_state S) : Prop := forall id code, ~ waits_for ops s id code.
  (** Some event presents the right code of some request. *)
  Definition guessed (play : list (list data) -> event) (s : ca_state S) (tape : list N) : Prop :=
    exists tr st s', steps E g ops s (tr ++ [st]) s' /\ played play tape (tr ++ [st]) /\ hits E g ops st.
  (** Some event issues a certificate for a request that waits for a code. *)
  Definition certified (play : list (list data) -> event) (s : ca_state S) (tape : list N) : Prop :=
    exists tr st s' i x id code c, steps E g ops s (tr ++ [st]) s' /\ played play tape (tr ++ [st]) /\
      handles st i x /\ names_request g id x /\ waits_for ops (h_pre st) id code /\ In (EIssue c) (h_effs st).
End Odds.
