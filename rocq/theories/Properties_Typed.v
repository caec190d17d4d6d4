(** C111: what the client's packets tell about the codes and proofs the user types. *)
From Verif Require Import TypedFacts TypedWitness.
Local Open Scope N_scope.

(** ** C111: what the user types for a challenge is sent encrypted only *)
(** Two runs in which other codes or proofs of the same lengths are typed: at every point the client is in the same state and
    does the same next; if it has sent an Interest, both are encryptions with the same key and initialization vector and look
    the same otherwise. *)
Theorem C111_typed_partial : forall E file pb h h' c nx c' nx', aes_laws E -> same_but_typed E file pb h h' -> client_run E file pb h c nx -> client_run E file pb h' c' nx' ->
  c = c' /\ next_alike E nx nx' /\ forall x w, nx = NWait x w -> exists x', nx' = NWait x' w /\ same_to_see x x'.
Proof. exact typed_not_seen. Qed.
Print Assumptions C111_typed_partial.
(** A right and a wrong code, the CHALLENGE Interests that carry them, and the same reply to both. *)
Example C111_case : exists h h' c nx c' nx', aes_laws toy /\ same_but_typed toy w_file [] h h' /\ client_run toy w_file [] h c nx /\ client_run toy w_file [] h' c' nx' /\
  (exists x x', nx = NWait x WChallenge /\ nx' = NWait x' WChallenge /\ params_of x <> params_of x') /\
  exists h1 h1' c1 c1' x1, h1 = (fst w_e6, Some (CData t_d6)) :: h /\ same_but_typed toy w_file [] h1 h1' /\ client_run toy w_file [] h1 c1 (NWait x1 WCert) /\ client_run toy w_file [] h1' c1' (NWait x1 WCert).
Proof. exact t_case. Qed.
(** Missing: the mail address, which PROBE carries in the clear. *)
Theorem C111_address_refuted : exists h c x p ci d, client_run toy w_file [] ((ci, Some (CData d)) :: h) c (NWait x (WProbe p)) /\ In (bs "alice@example") (ci_lines ci) /\
  exists els, parse (params_of x) = Some els /\ In (Tlv T_ParameterValue (bs "alice@example")) els.
Proof. exact t_address. Qed.
Print Assumptions C111_address_refuted.
