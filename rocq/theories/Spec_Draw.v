(** Where the random values of a CA go. *)
From Verif Require Export Spec_Trace.
Local Open Scope N_scope.

(** The 8, 16 and 32 random bytes and the fresh private key of one execution of a handler are the fields [in_iv],
    [in_nonce], [in_salt] and [in_sk] of its inputs, the words of the secret code are [in_words]. *)
(** The random part of [iv] was drawn while a CHALLENGE Interest for [id] was handled in one of the steps [tr]. *)
Definition iv_drawn {S} (g : ca_cfg) (id iv : bytes) (tr : list (hstep S)) : Prop :=
  exists st i x, In st tr /\ handles st i x /\ names_request g id x /\ rand_part iv = be_enc 8 (in_iv i).
(** The CA answers with the elements [els], in this order and nothing else. *)
Definition puts_elements {S} (st : hstep S) (els : list tlv) : Prop :=
  exists d, In (EPut d) (h_effs st) /\ parse (d_content d) = Some els.
(** A secret of a challenge is written to the store. *)
Definition stores_secret {S} (st : hstep S) (r : request) (k v : bytes) : Prop :=
  In (EUpdate r) (h_effs st) /\ exists cs, rq_cs r = Some cs /\ In (k, v) (cs_secrets cs).
