(** What the CA's replies reveal about secret codes: theorem C68.  Vocabulary in Spec_Secrecy.v: two runs get the
    same events up to the random words secret codes are made from ([same_but_codes]); [hits]: the event presents
    the secret code of the request it is for; [sent]: the packets put on the wire, event by event. *)
From Verif Require Import TraceWitness SecrecyWitness.
Local Open Scope N_scope.

(** ** C68: replies do not reveal secret codes *)
(** Until somebody presents the right code, the CA sends the same packets whatever codes were drawn. *)
Theorem C68_codes_not_revealed : forall E g S (ops : store_ops S) s tr tr' s2 s2', ca_at E g ops s -> steps E g ops s tr s2 -> steps E g ops s tr' s2' ->
  Forall2 same_but_codes (map h_ev tr) (map h_ev tr') -> (forall st, In st (tr ++ tr') -> ~ hits E g ops st) -> sent tr = sent tr'.
Proof. exact secrecy. Qed.
Print Assumptions C68_codes_not_revealed.
(** A pin challenge with two different codes drawn, and a wrong code in both runs. *)
Example C68_case : ca_at toy w_cfg mem_ops (fst w_ca1) /\ steps toy w_cfg mem_ops (fst w_ca1) [n_e2; n_e3] (fst n_ca3) /\ steps toy w_cfg mem_ops (fst w_ca1) [s_e2; s_e3] (fst s_ca3) /\
  Forall2 same_but_codes (map h_ev [n_e2; n_e3]) (map h_ev [s_e2; s_e3]) /\ (forall st, In st ([n_e2; n_e3] ++ [s_e2; s_e3]) -> ~ hits toy w_cfg mem_ops st) /\
  gen_code (in_words (x_inputs (x_now + sec 10) 2)) = Ok x_code /\ gen_code (in_words s_i2) = Ok (bs "000073") /\ length (sent [n_e2; n_e3]) = 2%nat.
Proof. split; [exact w_at1|]. split; [exact s_steps0|]. split; [exact s_steps|]. split; [exact s_same|]. split; [exact s_misses|]. split; [apply s_drawn|]. split; [apply s_drawn|reflexivity]. Qed.
(** The same runs going on with the code of the first: now the replies differ. *)
Example C68_needs_miss : step toy w_cfg mem_ops (fst n_ca3) (EvInterest (x_inputs (x_now + sec 7000) 4) (fst n_right)) = Some n_ca6 /\
  step toy w_cfg mem_ops (fst s_ca3) (EvInterest (x_inputs (x_now + sec 7000) 4) (fst n_right)) = Some s_ca4 /\ puts (snd n_ca6) <> puts (snd s_ca4).
Proof. split; [exact n_step6|]. split; [exact s_step4|exact s_tells]. Qed.
