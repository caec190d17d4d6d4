(** Histories of a CA: theorems C22-C27, C30-C32, C56, C64.  Vocabulary in Spec_Ca.v and Spec_Trace.v.
    [ca_history E g ops tr s]: [tr] is what a CA with configuration [g] and one of the two storages did from its
    first start to state [s]: Interests in any order, crashes after any effect, restarts, any clocks and random
    draws. *)
From Verif Require Import TraceWitness.
Local Open Scope N_scope.

(** ** C22: a certificate is issued only after a passed challenge *)
Theorem C22_issued_after_challenge : forall E g S (ops : store_ops S) tr st s c, ca_history E g ops (tr ++ [st]) s -> In (EIssue c) (h_effs st) ->
  exists id key c0 a1 new a2 start a3 i0 params0 ty0 r cs em i params ty,
    tr = a1 ++ new :: a2 ++ start :: a3 /\
    accepts E g id RT_NEW new key c0 /\ no_add id (a2 ++ start :: a3) /\
    asks E g id key c0 start i0 params0 ty0 /\ starts E (cf_chal g) i0 params0 r ty0 cs em /\ rq_cert r = c0 /\ (forall cmd, em = Some cmd -> In (EEmail cmd) (h_effs start)) /\
    asks E g id key c0 st i params ty /\ earned E (cf_chal g) i0 params0 ty0 params ty /\
    certifies E g c0 c.
Proof. exact after_passing. Qed.
Print Assumptions C22_issued_after_challenge.
(** NEW, pin challenge, a wrong code, the right code. *)
Example C22_case : ca_history toy x_cfg (db_ops toy) ([x_e1; x_e2; x_e3] ++ [x_e4]) (fst x_ca4) /\ In (EIssue x_cert) (h_effs x_e4).
Proof. split; [exact x_h4|left; reflexivity]. Qed.

(** ** C23: at most three guesses per secret *)
Theorem C23_three_guesses : forall E g S (ops : store_ops S) s tr s' id n, ca_at E g ops s -> steps E g ops s tr s' -> no_add id tr ->
  tally (fun st => answered st /\ exists given, compares E g ops id st given) tr n -> (n <= 3)%nat.
Proof. exact at_most_three. Qed.
Print Assumptions C23_three_guesses.
Theorem C23_third_ends : forall E g S (ops : store_ops S) s tr s' id, ca_at E g ops s -> steps E g ops s tr s' -> no_add id tr ->
  tally (fun st => answered st /\ exists given, compares E g ops id st given) tr 3 -> pending ops s' id = None.
Proof. exact third_comparison. Qed.
Print Assumptions C23_third_ends.
(** Three wrong codes. *)
Example C23_case : ca_at toy w_cfg mem_ops (fst w_ca1) /\ steps toy w_cfg mem_ops (fst w_ca1) [n_e2; n_e3; n_e4; n_e5] (fst n_ca5) /\
  no_add z_id [n_e2; n_e3; n_e4; n_e5] /\
  tally (fun st => answered st /\ exists given, compares toy w_cfg mem_ops z_id st given) [n_e2; n_e3; n_e4; n_e5] 3 /\
  pending mem_ops (fst n_ca4) z_id <> None.
Proof. split; [exact w_at1|]. split; [exact n_steps|]. split; [exact n_no_add|]. split; [exact n_tally|]. vm_compute. discriminate. Qed.

(** ** C24: a secret code expires *)
(** With [k] wrong codes in between, a code is accepted within [k + 1] times the longest lifetime of the challenge
    types the requester names from the start of the challenge on. *)
Theorem C24_code_expires_partial : forall E g S (ops : store_ops S) tr st s c, ca_history E g ops (tr ++ [st]) s -> In (EIssue c) (h_effs st) ->
  exists id key c0 a1 start a3 i0 params0 ty0 r cs em i params ty k,
    tr = a1 ++ start :: a3 /\ asks E g id key c0 start i0 params0 ty0 /\ starts E (cf_chal g) i0 params0 r ty0 cs em /\
    asks E g id key c0 st i params ty /\ earned E (cf_chal g) i0 params0 ty0 params ty /\ tally (renews id) a3 k /\ (k <= 2)%nat /\
    forall d L, ty <> bs "possession" -> paced d tr -> lives_within E g id key c0 L (a3 ++ [st]) ->
      (in_t1 i - in_t2 i0 < Z.of_nat (k + 1) * sec L + Z.of_nat k * d)%Z.
Proof. exact code_age. Qed.
Print Assumptions C24_code_expires_partial.
Example C24_case : ca_history toy w_cfg mem_ops ([w_e1; n_e2; n_e3] ++ [n_e6]) (fst n_ca6) /\ In (EIssue (the_issued (snd n_ca6))) (h_effs n_e6) /\
  paced 0 [w_e1; n_e2; n_e3].
Proof.
  split; [exact n_h6|]. split; [left; reflexivity|]. intros st i x IN H. apply ev_handles in H.
  repeat (destruct IN as [<-|IN]; [cbn [h_ev w_e1 n_e2 n_e3 ev_interest] in H; injection H as <- _; vm_compute; split; discriminate|]). destruct IN.
Qed.
(** The code of an email challenge (300 s), accepted after 1000 s under the name of the pin challenge. *)
Theorem C24_other_type_refuted : exists g tr start st s c id key c0 i0 params0 r cs em i params, ca_history toy g mem_ops (tr ++ [start] ++ [st]) s /\
  asks toy g id key c0 start i0 params0 (bs "email") /\ starts toy (cf_chal g) i0 params0 r (bs "email") cs em /\
  asks toy g id key c0 st i params (bs "pin") /\ In (EIssue c) (h_effs st) /\ (in_t1 i - in_t2 i0 = sec 1000)%Z.
Proof. exact late_other_type. Qed.
Print Assumptions C24_other_type_refuted.
(** The code of a pin challenge (3600 s), accepted after 6990 s because a wrong code in between renewed it. *)
Theorem C24_after_wrong_code_refuted : exists g tr start mid st s c id key c0 i0 params0 r cs em i params, ca_history toy g mem_ops (tr ++ [start] ++ [mid] ++ [st]) s /\
  asks toy g id key c0 start i0 params0 (bs "pin") /\ starts toy (cf_chal g) i0 params0 r (bs "pin") cs em /\
  asks toy g id key c0 st i params (bs "pin") /\ In (EIssue c) (h_effs st) /\ (in_t1 i - in_t2 i0 = sec 6990)%Z.
Proof. exact late_after_wrong. Qed.
Print Assumptions C24_after_wrong_code_refuted.

(** ** C25: at most one certificate per accepted request *)
(** Two certificates for one request ID, the first of them with a reply on the wire: a NEW Interest was accepted in
    between. *)
Theorem C25_one_certificate : forall E g S (ops : store_ops S) a st1 b st2 c s id i1 x1 i2 x2 c1 c2, ca_history E g ops (a ++ st1 :: b ++ st2 :: c) s ->
  handles st1 i1 x1 -> names_request g id x1 -> In (EIssue c1) (h_effs st1) -> answered st1 ->
  handles st2 i2 x2 -> names_request g id x2 -> In (EIssue c2) (h_effs st2) -> ~ no_add id b.
Proof. exact one_certificate. Qed.
Print Assumptions C25_one_certificate.
(** An answered CHALLENGE Interest leaves the challenge open or deletes the request. *)
Theorem C25_open_or_gone : forall E g S (ops : store_ops S) tr st s id r i x, ca_history E g ops (tr ++ [st]) s -> pending ops (h_pre st) id = Some r ->
  handles st i x -> names_request g id x -> signed_by E x (public_key (rq_cert r)) -> answered st ->
  (exists r3, In (EUpdate r3) (h_effs st) /\ rq_id r3 = id /\ rq_status r3 = ST_CHALLENGE) \/ (In (EDelete id) (h_effs st) /\ pending ops s id = None).
Proof. exact answered_ends. Qed.
Print Assumptions C25_open_or_gone.
Theorem C25_unknown_until_new : forall E g S (ops : store_ops S) a st b s id, ca_history E g ops (a ++ st :: b) s -> In (EDelete id) (h_effs st) -> no_add id b -> pending ops s id = None.
Proof. exact gone_until_new. Qed.
Print Assumptions C25_unknown_until_new.
(** The same request accepted and certified twice. *)
Example C25_case : ca_history toy w_cfg mem_ops ([w_e1; w_e2] ++ w_e3 :: [s_e4; s_e5] ++ s_e6 :: []) (fst s_ca6) /\
  names_request w_cfg z_id (fst w_code) /\ In (EIssue (the_issued (snd w_ca3))) (h_effs w_e3) /\ answered w_e3 /\
  In (EIssue (the_issued (snd s_ca6))) (h_effs s_e6) /\ In (EDelete z_id) (h_effs w_e3) /\ pending mem_ops (fst w_ca3) z_id = None /\ pending mem_ops (fst s_ca4) z_id <> None.
Proof.
  split; [exact s_h6|]. split; [names_tac|]. split; [left; reflexivity|]. split; [vm_compute; discriminate|]. split; [left; reflexivity|]. split; [right; left; reflexivity|].
  split; vm_compute; [reflexivity|discriminate].
Qed.

(** ** C26: what an issued certificate says *)
Theorem C26_issued_says : forall E g S (ops : store_ops S) tr st s c, ca_history E g ops (tr ++ [st]) s -> In (EIssue c) (h_effs st) ->
  exists id key c0 a1 new a2 i x nb na, tr = a1 ++ new :: a2 /\ accepts E g id RT_NEW new key c0 /\ no_add id a2 /\ handles new i x /\
    certifies E g c0 c /\ name_policy g (c_name c) /\ c_validity c = Some (nb, na) /\ period_policy g (in_t2 i) nb na.
Proof. exact issued_says. Qed.
Print Assumptions C26_issued_says.
Example C26_case : ca_history toy x_cfg (db_ops toy) ([x_e1; x_e2; x_e3] ++ [x_e4]) (fst x_ca4) /\ In (EIssue x_cert) (h_effs x_e4) /\
  c_name x_cert = x_keyname ++ [gc (bs "NDNCERT"); version_comp 54] /\ c_content x_cert = Some (o_pub toy x_sk) /\ c_validity x_cert = Some (x_now, (x_now + sec 3600)%Z).
Proof. split; [exact x_h4|]. split; [left; reflexivity|]. meets. Qed.

(** ** C27: an issued certificate is not already expired *)
(** Only this much: its period ended at most 120 s before the NEW Interest was accepted. *)
Theorem C27_fresh_at_new_partial : forall E g S (ops : store_ops S) tr st s c, ca_history E g ops (tr ++ [st]) s -> In (EIssue c) (h_effs st) ->
  exists id key c0 a1 new a2 i x nb na, tr = a1 ++ new :: a2 /\ accepts E g id RT_NEW new key c0 /\ handles new i x /\ certifies E g c0 c /\
    c_validity c = Some (nb, na) /\ (in_t2 i - sec 120 < na)%Z.
Proof. exact fresh_when_accepted. Qed.
Print Assumptions C27_fresh_at_new_partial.
Example C27_case : ca_history toy w_cfg mem_ops ([w_e1; p_e2] ++ [p_e3]) (fst p_ca3) /\ In (EIssue (the_issued (snd p_ca3))) (h_effs p_e3).
Proof. split; [exact p_hist|left; reflexivity]. Qed.
Theorem C27_expired_refuted : exists g tr st s c i x nb na, ca_history toy g mem_ops (tr ++ [st]) s /\ handles st i x /\ In (EIssue c) (h_effs st) /\
  c_validity c = Some (nb, na) /\ (na < in_t1 i)%Z.
Proof. exact issued_expired. Qed.
Print Assumptions C27_expired_refuted.

(** ** C30: the CA never repeats an initialization vector under one request's key *)
Theorem C30_distinct_ivs : forall E g S (ops : store_ops S) a st1 b st2 c s id iv1 iv2, ca_history E g ops (a ++ st1 :: b ++ st2 :: c) s ->
  no_add id b -> reply_iv g id st1 iv1 -> reply_iv g id st2 iv2 ->
  iv_prefix iv1 = iv_prefix iv2 /\ iv_counter iv1 < iv_counter iv2.
Proof. exact distinct_ivs. Qed.
Print Assumptions C30_distinct_ivs.
(** Three replies, with the crash after the signature of the certificate before the last one. *)
Definition C30_iv (es : list eff) : bytes := match wire_iv (d_content (the_put es)) with Some iv => iv | None => [] end.
Example C30_case : ca_history toy x_cfg (db_ops toy) ([x_e1; x_e2] ++ x_e3 :: [c_e4] ++ c_e5 :: []) (fst c_ca5) /\ no_add z_id [c_e4] /\
  reply_iv x_cfg z_id x_e3 (C30_iv (snd x_ca3)) /\ reply_iv x_cfg z_id c_e5 (C30_iv (snd c_ca5)).
Proof.
  split; [exact c_hist|]. split; [no_add_tac|]. split.
  - exists (x_inputs (x_now + sec 20) 3), (the_interest x_chal2), (the_put (snd x_ca3)). split; [left; reflexivity|]. split; [names_tac|]. split; [right; left; reflexivity|vm_compute; reflexivity].
  - exists (x_inputs (x_now + sec 40) 5), (the_interest x_chal3), (the_put (snd c_ca5)). split; [left; reflexivity|]. split; [names_tac|]. split; [right; right; left; reflexivity|vm_compute; reflexivity].
Qed.

(** ** C31: a CHALLENGE Interest is never processed twice *)
(** Once the outcome has reached the storage. *)
Theorem C31_taken_once_partial : forall E g S (ops : store_ops S) a st1 b st2 c s id x1 x2, ca_history E g ops (a ++ st1 :: b ++ st2 :: c) s -> no_add id b ->
  takes g id st1 x1 -> recorded id st1 -> takes g id st2 x2 -> blen (params_of x1) < 2 ^ 32 -> wire_iv (params_of x1) <> wire_iv (params_of x2).
Proof. exact taken_once. Qed.
Print Assumptions C31_taken_once_partial.
Example C31_case : ca_history toy x_cfg (db_ops toy) ([x_e1] ++ x_e2 :: [] ++ x_e3 :: [x_e4]) (fst x_ca4) /\ no_add z_id ([] : list (hstep db)) /\
  takes x_cfg z_id x_e2 (the_interest x_chal1) /\ recorded z_id x_e2 /\ takes x_cfg z_id x_e3 (the_interest x_chal2) /\ blen (params_of (the_interest x_chal1)) < 2 ^ 32.
Proof.
  split; [exact x_h4|]. split; [constructor|]. split; [exists (x_inputs (x_now + sec 10) 2); split; [left; reflexivity|]; split; [names_tac|]; left; eexists; left; reflexivity|].
  split; [left; eexists; left; reflexivity|]. split; [exists (x_inputs (x_now + sec 20) 3); split; [left; reflexivity|]; split; [names_tac|]; left; eexists; left; reflexivity|].
  vm_compute. reflexivity.
Qed.
(** The process dies after signing the certificate; the same Interest is then accepted again. *)
Theorem C31_crash_refuted : exists g tr st1 st2 s id x, ca_history toy g (db_ops toy) (tr ++ [st1] ++ [st2]) s /\ takes g id st1 x /\ takes g id st2 x.
Proof. exact taken_twice. Qed.
Print Assumptions C31_crash_refuted.

(** ** C32: a bystander cannot destroy a pending request *)
(** Only an Interest that names the request and carries a signature by the request's key has any effect on it (and,
    for the in-memory storage, the end of the process). *)
Theorem C32_signed_only_partial : forall E g S (ops : store_ops S) tr st s id r, ca_history E g ops (tr ++ [st]) s -> pending ops (h_pre st) id = Some r ->
  (exists i x, handles st i x /\ names_request g id x /\ signed_by E x (public_key (rq_cert r))) \/ pending ops s id = Some r \/
  ((exists i x n key, h_ev st = EvCrash i x n key) \/ exists key, h_ev st = EvRestart key) /\ pending ops s id = None.
Proof. exact untouched. Qed.
Print Assumptions C32_signed_only_partial.
Theorem C32_sqlite_partial : forall E g tr (st : hstep db) s id r, ca_history E g (db_ops E) (tr ++ [st]) s -> pending (db_ops E) (h_pre st) id = Some r ->
  (exists i x, handles st i x /\ names_request g id x /\ signed_by E x (public_key (rq_cert r))) \/ pending (db_ops E) s id = Some r.
Proof. exact untouched_db. Qed.
Print Assumptions C32_sqlite_partial.
Example C32_case : ca_history toy x_cfg (db_ops toy) ([x_e1; x_e2] ++ [x_e3]) (fst x_ca3) /\ pending (db_ops toy) (h_pre x_e3) z_id = Some x_r2.
Proof. split; [exact x_h3|vm_compute; reflexivity]. Qed.
(** The signature does not help against a copy: the same Interest sent again deletes the request. *)
Theorem C32_replay_refuted : exists g tr st1 st2 s id i1 i2 x, ca_history toy g (db_ops toy) (tr ++ [st1] ++ [st2]) s /\ handles st1 i1 x /\ handles st2 i2 x /\
  pending (db_ops toy) (h_pre st2) id <> None /\ pending (db_ops toy) s id = None.
Proof. exact replay_destroys. Qed.
Print Assumptions C32_replay_refuted.

(** ** C56: remaining tries and time reported to the requester are truthful *)
(** The reply to a continued challenge carries the stored number of tries and a time within the lifetime of the named
    challenge type (if the clock did not go back). *)
Theorem C56_reported_partial : forall E g S (ops : store_ops S) tr st s r3, aes_laws E -> ca_history E g ops (tr ++ [st]) s -> In (EUpdate r3) (h_effs st) -> answered st ->
  exists i x d l cs, handles st i x /\ names_request g (rq_id r3) x /\ In (EPut d) (h_effs st) /\ reply_opens E (rq_key r3) (rq_id r3) d l /\
    rq_cs r3 = Some cs /\ 1 <= cs_tries cs <= 3 /\ says l T_RemainingTries (cs_tries cs) /\ says l T_RemainingTime (to_u64 (cs_rtime cs)) /\
    (exists params ty, asks E g (rq_id r3) (rq_key r3) (rq_cert r3) st i params ty /\
       forall life, code_life ty life -> (forall r0 cs0, pending ops (h_pre st) (rq_id r3) = Some r0 -> rq_cs r0 = Some cs0 -> cs_time cs0 <= in_t1 i)%Z -> (0 <= cs_rtime cs <= life)%Z) /\
    ((exists r cs', pending ops s (rq_id r3) = Some r /\ rq_cs r = Some cs' /\ cs_tries cs' = cs_tries cs /\ cs_secrets cs' = cs_secrets cs) \/
     restarts (h_ev st) /\ pending ops s (rq_id r3) = None).
Proof. exact @reported. Qed.
Print Assumptions C56_reported_partial.
(** Not more codes than that are compared from then on ... *)
Theorem C56_tries_upper : forall E g S (ops : store_ops S) s tr s' id r cs n, ca_at E g ops s -> pending ops s id = Some r -> rq_cs r = Some cs -> steps E g ops s tr s' -> no_add id tr ->
  tally (fun st => answered st /\ exists given, compares E g ops id st given) tr n -> N.of_nat n <= cs_tries cs.
Proof. exact tries_left. Qed.
Print Assumptions C56_tries_upper.
(** ... and every wrong code costs exactly one. *)
Theorem C56_wrong_code : forall E g S (ops : store_ops S) s i x id r cs params ty given code, ca_at E g ops s -> names_request g id x -> pending ops s id = Some r -> rq_cs r = Some cs ->
  signed_by E x (public_key (rq_cert r)) -> acceptable E r x params -> selects params ty -> guesses i params cs ty given -> sec_get (bs "code") (cs_secrets cs) = Some code ->
  given <> code -> exists s' es, step E g ops s (EvInterest i x) = Some (s', es) /\ puts es <> [] /\
    ((1 < cs_tries cs /\ exists r' cs', pending ops s' id = Some r' /\ rq_cs r' = Some cs' /\ cs_tries cs' = cs_tries cs - 1 /\ cs_secrets cs' = cs_secrets cs) \/
     (cs_tries cs = 1 /\ pending ops s' id = None /\ exists d, In (EPut d) es /\ error_reply E g x (7 (* out of tries *)) d)).
Proof. exact @wrong_code. Qed.
Print Assumptions C56_wrong_code.
Example C56_case : ca_history toy x_cfg (db_ops toy) ([x_e1; x_e2] ++ [x_e3]) (fst x_ca3) /\ answered x_e3 /\ (exists r3, In (EUpdate r3) (h_effs x_e3)) /\
  ca_at toy x_cfg (db_ops toy) (fst x_ca2) /\ names_request x_cfg z_id (the_interest x_chal2) /\ pending (db_ops toy) (fst x_ca2) z_id = Some x_r2 /\ rq_cs x_r2 = Some x_cs2 /\
  signed_by toy (the_interest x_chal2) (public_key (rq_cert x_r2)) /\ acceptable toy x_r2 (the_interest x_chal2) x_p2 /\ selects x_p2 (bs "pin") /\
  guesses (x_inputs (x_now + sec 20) 3) x_p2 x_cs2 (bs "pin") (bs "000000") /\ sec_get (bs "code") (cs_secrets x_cs2) = Some x_code /\ bs "000000" <> x_code.
Proof.
  split; [exact x_h3|]. split; [vm_compute; discriminate|]. split; [eexists; left; reflexivity|]. split; [exact x_at2|]. split; [names_tac|].
  split; [vm_compute; reflexivity|]. split; [reflexivity|]. split; [signed_tac|]. split; [exact x_accept2|]. split; [selects_tac|].
  split; [do 2 eexists; split; [constructor|]; split; [left; reflexivity|]; split; [reflexivity|]; split; [reflexivity|vm_compute; reflexivity]|]. split; vm_compute; [reflexivity|discriminate].
Qed.
(** The time reported can exceed the lifetime of the challenge that was started: an email challenge (300 s), a wrong
    code under the name of the pin challenge: 3590 s. *)
Theorem C56_time_refuted : exists g tr start st s id key c0 i0 params0 r cs em d l, ca_history toy g mem_ops (tr ++ [start] ++ [st]) s /\
  asks toy g id key c0 start i0 params0 (bs "email") /\ starts toy (cf_chal g) i0 params0 r (bs "email") cs em /\ cs_rtime cs = 300%Z /\
  In (EPut d) (h_effs st) /\ reply_opens toy key id d l /\ says l T_RemainingTime 3590.
Proof. exact longer_than_issued. Qed.
Print Assumptions C56_time_refuted.

(** ** C64: the right code gets the certificate *)
Theorem C64_right_code : forall E g S (ops : store_ops S) s i x id r cs params ty code, aes_laws E -> ca_at E g ops s -> names_request g id x -> pending ops s id = Some r -> rq_cs r = Some cs -> rq_type r = RT_NEW ->
  signed_by E x (public_key (rq_cert r)) -> acceptable E r x params -> selects params ty -> guesses i params cs ty code -> sec_get (bs "code") (cs_secrets cs) = Some code ->
  blen (name_wire (c_name (rq_cert r))) < 2 ^ 31 -> blen (name_wire (p_fwd (cfp g))) < 2 ^ 32 ->
  exists s' es c d l t, step E g ops s (EvInterest i x) = Some (s', es) /\ In (EIssue c) es /\ certifies E g (rq_cert r) c /\ pending ops s' id = None /\
    puts es = [d] /\ d_name d = i_name x /\ data_signed_by E d (cf_sk g) /\ reply_opens E (rq_key r) id d l /\ says l T_Status ST_SUCCESS /\
    get T_IssuedCertName l = Some t /\ t_val t = name_wire (c_name c).
Proof. exact @right_code. Qed.
Print Assumptions C64_right_code.
Example C64_case : ca_at toy x_cfg (db_ops toy) (fst x_ca3) /\ names_request x_cfg z_id (the_interest x_chal3) /\ pending (db_ops toy) (fst x_ca3) z_id = Some x_r3 /\ rq_cs x_r3 = Some x_cs3 /\ rq_type x_r3 = RT_NEW /\
  signed_by toy (the_interest x_chal3) (public_key (rq_cert x_r3)) /\ acceptable toy x_r3 (the_interest x_chal3) x_p3 /\ selects x_p3 (bs "pin") /\
  guesses (x_inputs (x_now + sec 30) 4) x_p3 x_cs3 (bs "pin") x_code /\ sec_get (bs "code") (cs_secrets x_cs3) = Some x_code /\
  blen (name_wire (c_name (rq_cert x_r3))) < 2 ^ 31 /\ blen (name_wire (p_fwd (cfp x_cfg))) < 2 ^ 32.
Proof.
  split; [exact x_at3|]. split; [names_tac|]. split; [vm_compute; reflexivity|]. split; [reflexivity|]. split; [reflexivity|]. split; [signed_tac|]. split; [exact x_accept3|]. split; [selects_tac|].
  split; [do 2 eexists; split; [constructor|]; split; [right; reflexivity|]; split; [reflexivity|]; split; [reflexivity|vm_compute; reflexivity]|]. repeat split; vm_compute; reflexivity.
Qed.

(** ** C78: a code the CA waits for was mailed *)
(** Whenever a request waits for a code, its challenge was begun by an Interest of the requester in the history
    before, crashes included; if that Interest named the email challenge, the step handed exactly this code to the
    script, for the address in it. *)
Theorem C78_mailed : forall E g S (ops : store_ops S) tr s id r cs, ca_history E g ops tr s -> pending ops s id = Some r -> rq_cs r = Some cs ->
  exists a1 start a2 i params ty, tr = a1 ++ start :: a2 /\ no_add id a2 /\ asks E g id (rq_key r) (rq_cert r) start i params ty /\
    (ty = bs "email" -> exists code addr, gen_code (in_words i) = Ok code /\ cs_secrets cs = [(bs "code", code)] /\ get T_ParameterValue params = Some addr /\
       In (EEmail (email_command E (cc_script (cf_chal g)) (t_val addr) code r)) (h_effs start)).
Proof. exact was_mailed. Qed.
Print Assumptions C78_mailed.
Example C78_case : exists r cs, ca_history toy w_cfg mem_ops [w_e1; w_e2] (fst w_ca2) /\ pending mem_ops (fst w_ca2) z_id = Some r /\ rq_cs r = Some cs /\ cs_secrets cs <> [].
Proof. do 2 eexists. split; [exact w_h2|]. split; [vm_compute; reflexivity|]. split; [reflexivity|discriminate]. Qed.
