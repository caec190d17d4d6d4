(** How far guessing a secret code gets: theorem C91.  Vocabulary in Spec_Guess.v: an attacker sees the packets the
    CA sends and chooses every further event by them ([play], [follows]); [run_with]: the run in which the CA drew
    this code; [presented]: the run ends with the first event that presents the code; [obtained]: it ends with a
    certificate issued for the request. *)
From Verif Require Import TraceWitness GuessWitness.
Local Open Scope N_scope.

(** ** C91: a secret code can hardly be guessed *)
(** The attacker plays against every code the CA may draw.  At most three codes are ones it presents at all ... *)
Theorem C91_three_codes : forall E g S (ops : store_ops S) s i x id r0 play codes, ca_at E g ops s -> names_request g id x -> pending ops s id = Some r0 -> rq_cs r0 = None ->
  NoDup codes -> (forall code, In code codes -> presented E g ops play s i x id code) -> (length codes <= 3)%nat.
Proof. exact three_codes. Qed.
Print Assumptions C91_three_codes.
(** ... so at most three let it have a certificate ... *)
Theorem C91_certificates : forall E g S (ops : store_ops S) s i x id r0 play codes, ca_at E g ops s -> names_request g id x -> pending ops s id = Some r0 -> rq_cs r0 = None ->
  NoDup codes -> (forall code, In code codes -> obtained E g ops play s i x id code) -> (length codes <= 3)%nat.
Proof. exact three_certificates. Qed.
Print Assumptions C91_certificates.
(** ... and of the 4294000000 random words a code is drawn from, at most 12882 do: three in a million. *)
Theorem C91_chance : forall E g S (ops : store_ops S) s i x id r0 play words, ca_at E g ops s -> names_request g id x -> pending ops s id = Some r0 -> rq_cs r0 = None ->
  NoDup words -> (forall w, In w words -> w < 2 ^ 32 /\ exists code, gen_code [w] = Ok code /\ obtained E g ops play s i x id code) -> N.of_nat (length words) <= 3 * 4294.
Proof. exact three_in_a_million. Qed.
Print Assumptions C91_chance.
(** An attacker who presents 000000, 000001 and 000002 in turn gets a certificate for each of the three: the bound is met. *)
Example C91_case : ca_at toy w_cfg mem_ops (fst w_ca1) /\ names_request w_cfg z_id (fst n_chal1) /\ (exists r0, pending mem_ops (fst w_ca1) z_id = Some r0 /\ rq_cs r0 = None) /\
  NoDup [bs "000000"; bs "000001"; bs "000002"] /\
  (forall code, In code [bs "000000"; bs "000001"; bs "000002"] -> obtained toy w_cfg mem_ops g_play (fst w_ca1) g_i (fst n_chal1) z_id code).
Proof.
  split; [exact w_at1|]. split; [names_tac|]. split; [eexists; split; vm_compute; reflexivity|].
  split; [repeat constructor; cbn [In]; intros H; repeat (destruct H as [H|H]; [discriminate H|]); exact H|].
  intros code [<-|[<-|[<-|[]]]]; [exact g_a|exact g_b|exact g_c].
Qed.
Example C91_words : gen_code [0] = Ok (bs "000000") /\ gen_code [4294] = Ok (bs "000001") /\ gen_code [8588] = Ok (bs "000002").
Proof. meets. Qed.
