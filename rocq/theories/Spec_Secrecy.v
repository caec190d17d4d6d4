(** Vocabulary for the statement that replies do not depend on secret codes. *)
From Verif Require Export Spec_Trace.
Local Open Scope N_scope.

(** The same clock, random draws and script outcome, except for the words that secret codes are made from. *)
Definition with_words (ws : list N) (i : inputs) : inputs :=
  Inputs (in_t1 i) (in_t2 i) (in_sk i) (in_salt i) (in_iv i) ws (in_nonce i) (in_version i) (in_mversion i) (in_script_ok i) (in_words64 i).
(** Two draws of secret codes, everything else being equal. *)
Definition other_code (i i' : inputs) : Prop :=
  (exists ws, i' = with_words ws i) /\ (exists c, gen_code (in_words i) = Ok c) /\ (exists c, gen_code (in_words i') = Ok c).
(** The same event, up to the secret codes drawn. *)
Inductive same_but_codes : event -> event -> Prop :=
| sbc_interest : forall i i' x, other_code i i' -> same_but_codes (EvInterest i x) (EvInterest i' x)
| sbc_crash : forall i i' x n key, other_code i i' -> same_but_codes (EvCrash i x n key) (EvCrash i' x n key)
| sbc_restart : forall key, same_but_codes (EvRestart key) (EvRestart key)
| sbc_profile : forall i i', other_code i i' -> same_but_codes (EvProfile i) (EvProfile i').
(** The event presents the secret code of the request it is for. *)
Definition hits {S} (E : env) (g : ca_cfg) (ops : store_ops S) (st : hstep S) : Prop :=
  exists id r cs code, pending ops (h_pre st) id = Some r /\ rq_cs r = Some cs /\ sec_get (bs "code") (cs_secrets cs) = Some code /\
    compares E g ops id st code.
(** The packets sent in each event. *)
Definition sent {S} (tr : list (hstep S)) : list (list data) := map (fun st => puts (h_effs st)) tr.
