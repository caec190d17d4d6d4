(** The ledger a CA keeps: an abstract machine for the life of one request, and how a CA's steps perform its moves. *)
From Verif Require Export Spec_Trace.
Local Open Scope N_scope.

(** ** The machine *)
(** Where a request stands: accepted, waiting for a code with so many tries left since a time, or waiting for a proof
    that the holder of a credential signs a nonce. *)
Inductive stage : Type :=
| Fresh
| AwaitCode (code : bytes) (tries : N) (since : Z)
| AwaitProof (credential : cert) (nonce : bytes).
(** A request: its type, the certificate asked for (or to be revoked), the session key, and where it stands. *)
Record entry : Type := Entry { en_type : N; en_cert : cert; en_key : bytes; en_stage : stage }.
(** What the requester shows to pass: a code, at a time and with the lifetime of the challenge named, or a signature. *)
Inductive answer : Type :=
| GiveCode (code : bytes) (at_time : Z) (life : Z)
| GiveProof (signature : bytes).
Inductive move : Type :=
| Idle
| Open (rt : N) (c : cert) (key : bytes)
| Ask (s : stage)
| Miss (a : answer) (since : Z)
| Drop
| Sign (a : answer) (c : cert)      (* a certificate is signed, but the CA crashes before it forgets the request *)
| Grant (a : answer) (c : cert)
| Revoke (a : answer)
| Lose.                             (* the CA restarts without a database *)

Definition in_time (s : Z) (t life : Z) : Prop := (t - s < sec life)%Z.
(** The answer meets the challenge. *)
Inductive meets_stage (E : env) : stage -> answer -> Prop :=
| ms_code : forall code n s t life, in_time s t life -> meets_stage E (AwaitCode code n s) (GiveCode code t life)
| ms_proof : forall c nonce sg, o_verify E (public_key c) (MRaw nonce) sg = true -> meets_stage E (AwaitProof c nonce) (GiveProof sg).
(** A challenge that has just begun. *)
Inductive begun : stage -> Prop :=
| begun_code : forall code s, begun (AwaitCode code 3 s)
| begun_proof : forall c nonce, begun (AwaitProof c nonce).

Inductive turns (E : env) (g : ca_cfg) : option entry -> move -> option entry -> Prop :=
| t_idle : forall m, turns E g m Idle m
| t_open : forall rt c key, rt = RT_NEW \/ rt = RT_REVOKE -> turns E g None (Open rt c key) (Some (Entry rt c key Fresh))
| t_ask : forall rt c key s, begun s -> turns E g (Some (Entry rt c key Fresh)) (Ask s) (Some (Entry rt c key s))
| t_miss : forall rt c key code n s given t life s', given <> code -> in_time s t life -> 1 < n ->
    turns E g (Some (Entry rt c key (AwaitCode code n s))) (Miss (GiveCode given t life) s') (Some (Entry rt c key (AwaitCode code (n - 1) s')))
| t_drop : forall e, turns E g (Some e) Drop None
| t_sign : forall c0 key s a c, meets_stage E s a -> certifies E g c0 c -> turns E g (Some (Entry RT_NEW c0 key s)) (Sign a c) (Some (Entry RT_NEW c0 key s))
| t_grant : forall c0 key s a c, meets_stage E s a -> certifies E g c0 c -> turns E g (Some (Entry RT_NEW c0 key s)) (Grant a c) None
| t_revoke : forall c0 key s a, meets_stage E s a -> turns E g (Some (Entry RT_REVOKE c0 key s)) (Revoke a) None
| t_lose : forall m, turns E g m Lose None.
Inductive ledger_run (E : env) (g : ca_cfg) : option entry -> list move -> option entry -> Prop :=
| lr_nil : forall m, ledger_run E g m [] m
| lr_cons : forall m a m1 l m2, turns E g m a m1 -> ledger_run E g m1 l m2 -> ledger_run E g m (a :: l) m2.

(** ** What the CA does *)
(** The database keeps microseconds. *)
Definition about (s t : Z) : Prop := (Z.abs (t - s) < 1000)%Z.
(** An answer in the parameters [params] of a CHALLENGE Interest handled with the inputs [i] and naming the challenge [ty]. *)
Inductive gives (i : inputs) (params : list tlv) : bytes -> answer -> Prop :=
| gives_code : forall ty life t, code_life ty life -> get T_ParameterValue params = Some t -> gives i params ty (GiveCode (t_val t) (in_t1 i) life)
| gives_proof : forall sg, pair_in params (bs "proof") sg -> gives i params (bs "possession") (GiveProof sg).
(** The commands run and the certificates signed. *)
Definition mails_only (es : list eff) (cmds : list bytes) : Prop := forall cmd, In (EEmail cmd) es <-> In cmd cmds.
Definition signs_only (es : list eff) (certs : list cert) : Prop := forall c, In (EIssue c) es <-> In c certs.
(** The challenge [s] is begun; an email challenge runs the mail command with the address given. *)
Inductive begins (E : env) (g : ca_cfg) (i : inputs) (params : list tlv) (c : cert) (es : list eff) : bytes -> stage -> Prop :=
| begins_pin : forall code s, gen_code (in_words i) = Ok code -> about s (in_t2 i) -> mails_only es [] -> begins E g i params c es (bs "pin") (AwaitCode code 3 s)
| begins_email : forall code s addr r, gen_code (in_words i) = Ok code -> about s (in_t2 i) -> get T_ParameterValue params = Some addr -> rq_cert r = c -> rq_prefix r = p_prefix (cfp g) ->
    mails_only es [email_command E (cc_script (cf_chal g)) (t_val addr) code r] -> begins E g i params c es (bs "email") (AwaitCode code 3 s)
| begins_possession : forall cr, credential_in E params cr -> trusted E (cf_chal g) cr -> mails_only es [] -> begins E g i params c es (bs "possession") (AwaitProof cr (rnd_nonce i)).

(** The effects on the storage for [id]. *)
Definition touches (id : bytes) (e : eff) : Prop :=
  match e with EAdd r | EUpdate r => rq_id r = id | EDelete id' => id' = id | _ => False end.
(** The step performs the move on the request [id], now [m]. *)
Inductive performs {S} (E : env) (g : ca_cfg) (id : bytes) (st : hstep S) : option entry -> move -> Prop :=
| pf_idle : forall m, (forall e, In e (h_effs st) -> ~ touches id e) ->
    (forall i x, handles st i x -> names_request g id x -> signs_only (h_effs st) []) -> performs E g id st m Idle
| pf_open : forall m rt c key, accepts E g id rt st key c -> signs_only (h_effs st) [] -> performs E g id st m (Open rt c key)
| pf_ask : forall e i params ty s r, asks E g id (en_key e) (en_cert e) st i params ty -> begins E g i params (en_cert e) (h_effs st) ty s ->
    In (EUpdate r) (h_effs st) -> signs_only (h_effs st) [] -> performs E g id st (Some e) (Ask s)
| pf_miss : forall e i params ty a s r, asks E g id (en_key e) (en_cert e) st i params ty -> gives i params ty a -> about s (in_t2 i) ->
    In (EUpdate r) (h_effs st) -> signs_only (h_effs st) [] -> mails_only (h_effs st) [] -> performs E g id st (Some e) (Miss a s)
| pf_drop : forall e i x, handles st i x -> names_request g id x -> signed_by E x (public_key (en_cert e)) -> In (EDelete id) (h_effs st) ->
    signs_only (h_effs st) [] -> (forall r, ~ In (ECallback r) (h_effs st)) -> performs E g id st (Some e) Drop
| pf_sign : forall e i params ty a c, asks E g id (en_key e) (en_cert e) st i params ty -> gives i params ty a ->
    h_effs st = [EIssue c] -> performs E g id st (Some e) (Sign a c)
| pf_grant : forall e i params ty a c, asks E g id (en_key e) (en_cert e) st i params ty -> gives i params ty a ->
    signs_only (h_effs st) [c] -> In (EDelete id) (h_effs st) -> performs E g id st (Some e) (Grant a c)
| pf_revoke : forall e i params ty a, asks E g id (en_key e) (en_cert e) st i params ty -> gives i params ty a ->
    In (EDelete id) (h_effs st) -> signs_only (h_effs st) [] -> performs E g id st (Some e) (Revoke a).

(** A stored request is the entry. *)
Inductive stands (E : env) : request -> stage -> Prop :=
| st_fresh : forall r, rq_status r = 0 -> rq_cs r = None -> stands E r Fresh
| st_code : forall r cs code, rq_status r = 1 -> rq_cs r = Some cs -> wants_code cs -> cs_secrets cs = [(bs "code", code)] ->
    stands E r (AwaitCode code (cs_tries cs) (cs_time cs))
| st_proof : forall r cs c nonce, rq_status r = 1 -> rq_cs r = Some cs -> proves E cs c nonce -> stands E r (AwaitProof c nonce).
Inductive stored_as (E : env) : option request -> option entry -> Prop :=
| sa_none : stored_as E None None
| sa_some : forall r e, rq_type r = en_type e -> rq_cert r = en_cert e -> rq_key r = en_key e -> stands E r (en_stage e) -> stored_as E (Some r) (Some e).

(** Step by step: one move each, and possibly the loss of everything at a restart; the storage agrees after every step. *)
Inductive walks {S} (E : env) (g : ca_cfg) (ops : store_ops S) (id : bytes) : option entry -> list (hstep S) -> list move -> option entry -> Prop :=
| wk_nil : forall m, walks E g ops id m [] [] m
| wk_step : forall m st a m1 tr l m2, performs E g id st m a -> turns E g m a m1 -> stored_as E (pending ops (h_post st) id) m1 ->
    walks E g ops id m1 tr l m2 -> walks E g ops id m (st :: tr) (a :: l) m2
| wk_lost : forall m st a m1 tr l m2, performs E g id st m a -> turns E g m a m1 -> restarts (h_ev st) -> pending ops (h_post st) id = None ->
    walks E g ops id None tr l m2 -> walks E g ops id m (st :: tr) (a :: Lose :: l) m2.

(** ** What a run of the machine tells *)
(** The answer fits the challenge as it was begun. *)
Inductive fits_challenge (E : env) : stage -> answer -> Prop :=
| fc_code : forall code n s t life, fits_challenge E (AwaitCode code n s) (GiveCode code t life)
| fc_proof : forall c nonce sg, o_verify E (public_key c) (MRaw nonce) sg = true -> fits_challenge E (AwaitProof c nonce) (GiveProof sg).
Definition is_miss (a : move) : bool := match a with Miss _ _ => true | _ => false end.
Definition misses (l : list move) : nat := length (filter is_miss l).
(** Nothing happens to the request; it stays in its challenge. *)
Definition all_idle (l : list move) : Prop := Forall (fun a => a = Idle) l.
Definition stays (l : list move) : Prop := Forall (fun a => match a with Idle | Miss _ _ | Sign _ _ => True | _ => False end) l.
(** The moves before an answer was accepted: the request [c0] of type [rt] was accepted, a challenge was begun, and since
    then at most two wrong answers were given. *)
Definition led_to (E : env) (rt : N) (c0 : cert) (a : answer) (before : list move) : Prop :=
  exists b1 key b2 s b3, before = b1 ++ Open rt c0 key :: b2 ++ Ask s :: b3 /\ all_idle b2 /\ stays b3 /\ (misses b3 <= 2)%nat /\ begun s /\ fits_challenge E s a.
