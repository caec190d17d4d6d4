(** How far an attacker gets with many tries at as many requests as it likes: theorem C93.  Vocabulary in Spec_Odds.v
    and Spec_Guess.v: [play]: how the attacker chooses the next event (Interest, crash, restart, clocks, all random draws
    but the secret codes) by the packets the CA has sent; [played]: the run in which the random words of secret codes
    are those on the tape; [drawable]: the words that generateSecretCode does not draw again; [guessed]: some event
    presents the code of the request it is for; [certified]: some event issues a certificate for a request that waits
    for a code.  There are 4294000000 ^ T tapes of T words. *)
From Verif Require Import OddsWitness.
Local Open Scope N_scope.

(** ** C93: an attacker with T events finds a code with probability at most T in a million *)
Theorem C93_tries : forall E g S (ops : store_ops S) play s T tapes, ca_at E g ops s -> no_codes ops s -> NoDup tapes ->
  (forall t, In t tapes -> length t = T /\ Forall drawable t /\ guessed E g ops play s t) ->
  N.of_nat (length tapes) * 1000000 <= N.of_nat T * 4294000000 ^ N.of_nat T.
Proof. exact odds. Qed.
Print Assumptions C93_tries.
(** So it gets a certificate by such a code with no greater probability. *)
Theorem C93_certificates : forall E g S (ops : store_ops S) play s T tapes, ca_at E g ops s -> no_codes ops s -> NoDup tapes ->
  (forall t, In t tapes -> length t = T /\ Forall drawable t /\ certified E g ops play s t) ->
  N.of_nat (length tapes) * 1000000 <= N.of_nat T * 4294000000 ^ N.of_nat T.
Proof. exact odds_certificate. Qed.
Print Assumptions C93_certificates.
(** Two tapes on which an attacker who presents 000000 gets a certificate. *)
Example C93_case : ca_at toy w_cfg mem_ops (fst w_ca1) /\ no_codes mem_ops (fst w_ca1) /\ NoDup [[0; 7]; [1; 7]] /\
  (forall t, In t [[0; 7]; [1; 7]] -> length t = 2%nat /\ Forall drawable t /\ guessed toy w_cfg mem_ops o_play (fst w_ca1) t /\ certified toy w_cfg mem_ops o_play (fst w_ca1) t).
Proof.
  split; [exact w_at1|]. split; [exact o_no_codes|]. split; [repeat constructor; cbn [In]; intros H; repeat (destruct H as [H|H]; [discriminate H|]); exact H|].
  assert (D : forall w, w < 8 -> drawable w) by (intros w H; apply (N.lt_trans _ _ _ H); reflexivity).
  intros t [<-|[<-|[]]]; (split; [reflexivity|]; split; [repeat constructor; apply D; reflexivity|]).
  - split; [apply certified_guessed; [exact w_at1|exact o_no_codes|repeat constructor; apply D; reflexivity|]|]; apply o_wins; auto.
  - split; [apply certified_guessed; [exact w_at1|exact o_no_codes|repeat constructor; apply D; reflexivity|]|]; apply o_wins; auto.
Qed.
