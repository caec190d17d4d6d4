(** Vocabulary for the statements about whole histories of a CA: any sequence of Interests, crashes after any
    effect, restarts and profile requests, with any clock values and random draws. *)
From Verif Require Export Spec_Ca.
Local Open Scope N_scope.

(** One event of a history, with the states before and after and the effects it had. *)
Record hstep (S : Type) : Type := HStep { h_pre : ca_state S; h_ev : event; h_effs : list eff; h_post : ca_state S }.
Arguments HStep {S}. Arguments h_pre {S}. Arguments h_ev {S}. Arguments h_effs {S}. Arguments h_post {S}.

Inductive steps {S} (E : env) (g : ca_cfg) (ops : store_ops S) : ca_state S -> list (hstep S) -> ca_state S -> Prop :=
| steps_nil : forall s, steps E g ops s [] s
| steps_cons : forall s ev es s1 tr s2, step E g ops s ev = Some (s1, es) -> steps E g ops s1 tr s2 ->
    steps E g ops s (HStep s ev es s1 :: tr) s2.

(** [tr] is a history of a CA with one of the two storages, from its first start to state [s]. *)
Record ca_history {S} (E : env) (g : ca_cfg) (ops : store_ops S) (tr : list (hstep S)) (s : ca_state S) : Prop := {
  ch_codec : codec_laws E;
  ch_prefix : name_fits (p_prefix (cfp g));
  ch_store : back_end E S ops;
  ch_steps : exists key, steps E g ops (ca_init ops key) tr s
}.

(** The Interest an event handles, if any (a crash interrupts the handling). *)
Definition handles {S} (st : hstep S) (i : inputs) (x : interest) : Prop :=
  h_ev st = EvInterest i x \/ exists n key, h_ev st = EvCrash i x n key.
(** A request is accepted under [id]. *)
Definition adds {S} (id : bytes) (st : hstep S) : Prop := exists r, In (EAdd r) (h_effs st) /\ rq_id r = id.
Definition no_add {S} (id : bytes) (tr : list (hstep S)) : Prop := Forall (fun st => ~ adds id st) tr.
(** A reply is put on the wire. *)
Definition answered {S} (st : hstep S) : Prop := puts (h_effs st) <> [].

(** A NEW (REVOKE) Interest accepted under [id], with the key it establishes and the certificate it carries. *)
Definition accepts {S} (E : env) (g : ca_cfg) (id : bytes) (rt : N) (st : hstep S) (key : bytes) (c : cert) : Prop :=
  exists i x peer, handles st i x /\ addressed g (if rt =? RT_NEW then VNew else VRevoke) (i_name x) /\
    admissible E g i rt id x peer c /\ key = session_key E i id peer /\ In (EAdd (created E g i rt id peer c)) (h_effs st).
(** A CHALLENGE Interest for [id], signed by the certificate's key, with parameters encrypted under the key. *)
Definition asks {S} (E : env) (g : ca_cfg) (id key : bytes) (c : cert) (st : hstep S) (i : inputs) (params : list tlv) (ty : bytes) : Prop :=
  exists x, handles st i x /\ names_request g id x /\ signed_by E x (public_key c) /\ opens E key id x params /\ selects params ty.

(** The secret fixed by the challenge started with [i0], [params0] is met by the parameters [params]. *)
Inductive earned (E : env) (cfg : chal_cfg) (i0 : inputs) (params0 : list tlv) (ty0 : bytes) (params : list tlv) : bytes -> Prop :=
| earned_code : forall ty code t, ty0 = bs "pin" \/ ty0 = bs "email" -> ty = bs "pin" \/ ty = bs "email" ->
    gen_code (in_words i0) = Ok code -> get T_ParameterValue params = Some t -> t_val t = code ->
    earned E cfg i0 params0 ty0 params ty
| earned_proof : forall c proof, ty0 = bs "possession" -> credential_in E params0 c -> trusted E cfg c ->
    pair_in params (bs "proof") proof -> o_verify E (public_key c) (MRaw (rnd_nonce i0)) proof = true ->
    earned E cfg i0 params0 ty0 params (bs "possession").

(** A secret code is compared with the request's: the Interest reaches the comparison of a pin or email challenge. *)
Definition compares {S} (E : env) (g : ca_cfg) (ops : store_ops S) (id : bytes) (st : hstep S) (given : bytes) : Prop :=
  exists i params ty r cs, pending ops (h_pre st) id = Some r /\ rq_cs r = Some cs /\
    asks E g id (rq_key r) (rq_cert r) st i params ty /\ guesses i params cs ty given.

(** [n] of the elements have the property. *)
Inductive tally {A} (P : A -> Prop) : list A -> nat -> Prop :=
| tally_nil : tally P [] 0
| tally_yes : forall a l n, P a -> tally P l n -> tally P (a :: l) (S n)
| tally_no : forall a l n, ~ P a -> tally P l n -> tally P (a :: l) n.

(** The initialization vectors of the encrypted replies to CHALLENGE Interests for [id]. *)
Definition reply_iv {S} (g : ca_cfg) (id : bytes) (st : hstep S) (iv : bytes) : Prop :=
  exists i x d, handles st i x /\ names_request g id x /\ In (EPut d) (h_effs st) /\ wire_iv (d_content d) = Some iv.
(** A CHALLENGE Interest for [id] is accepted: the challenge goes on or is passed. *)
Definition takes {S} (g : ca_cfg) (id : bytes) (st : hstep S) (x : interest) : Prop :=
  exists i, handles st i x /\ names_request g id x /\
    ((exists r, In (EUpdate r) (h_effs st)) \/ (exists c, In (EIssue c) (h_effs st)) \/
     (exists r, In (ECallback r) (h_effs st) /\ rq_status r = ST_SUCCESS)).
(** The acceptance has reached the storage. *)
Definition recorded {S} (id : bytes) (st : hstep S) : Prop :=
  (exists r, In (EUpdate r) (h_effs st)) \/ In (EDelete id) (h_effs st).

(** Clocks: in every handler the second reading is at most [d] after the first, and no time is negative. *)
Definition paced {S} (d : Z) (tr : list (hstep S)) : Prop :=
  forall st i x, In st tr -> handles st i x -> (0 <= in_t2 i <= in_t1 i + d)%Z.

(** The challenge of [id] goes on: its new state is stored. *)
Definition renews {S} (id : bytes) (st : hstep S) : Prop := exists r, In (EUpdate r) (h_effs st) /\ rq_id r = id.
(** The challenge types named for [id] have lifetimes of at most [L] seconds. *)
Definition lives_within {S} (E : env) (g : ca_cfg) (id key : bytes) (c : cert) (L : Z) (tr : list (hstep S)) : Prop :=
  forall st i params ty life, In st tr -> asks E g id key c st i params ty -> code_life ty life -> (life <= L)%Z.

(** [c] is the certificate for the certificate request [c0]: same key name, key and validity period, issued and
    signed by the CA. *)
Definition certifies (E : env) (g : ca_cfg) (c0 c : cert) : Prop :=
  exists keyname issuer0 version0 version, c_name c0 = keyname ++ [issuer0; version0] /\
    c_name c = keyname ++ [gc (bs "NDNCERT"); version_comp version] /\ c_content c = c_content c0 /\ c_validity c = c_validity c0 /\
    c_iskey c = true /\ c_keyloc c = Some (cf_keyloc g) /\ c_sig c = o_sign E (cf_sk g) (cert_msg c).

(** ** What a CHALLENGE Interest needs to be read, and what a reply says *)
(** The encrypted parameters open under the request's key and carry a fresh initialization vector: with another
    random part than the CA's own, and the same random part and no smaller counter than the last one accepted. *)
Definition acceptable (E : env) (r : request) (x : interest) (params : list tlv) : Prop :=
  exists els iv tag ct pt, parse (params_of x) = Some els /\ get T_InitializationVector els = Some iv /\
    get T_AuthenticationTag els = Some tag /\ get T_EncryptedPayload els = Some ct /\
    length (t_val iv) = 12%nat /\ length (t_val tag) = 16%nat /\
    o_aes_dec E (rq_key r) (t_val iv) (rq_id r) (t_val ct) (t_val tag) = Some pt /\ length pt = length (t_val ct) /\
    pt <> [] /\ small_payload pt /\ parse pt = Some params /\
    (rq_eiv r = [] \/ rand_part (t_val iv) <> rand_part (rq_eiv r)) /\
    (rq_div r = [] \/ rand_part (t_val iv) = rand_part (rq_div r) /\ ctr_part (rq_div r) <= ctr_part (t_val iv)) /\
    ctr_part (t_val iv) + blocks16 pt < 2 ^ 32 - 1.
(** The elements of an encrypted reply, opened with the request's key. *)
Definition reply_opens (E : env) (key id : bytes) (d : data) (l : list tlv) : Prop :=
  exists els iv tag ct pt, parse (d_content d) = Some els /\ get T_InitializationVector els = Some iv /\
    get T_AuthenticationTag els = Some tag /\ get T_EncryptedPayload els = Some ct /\
    o_aes_dec E key (t_val iv) id (t_val ct) (t_val tag) = Some pt /\ parse pt = Some l.
(** The number in an element of a reply. *)
Definition says (l : list tlv) (ty : N) (n : N) : Prop := exists t, get ty l = Some t /\ nni_dec (t_val t) = Some n.

(** ** The back end *)
(** An event without a restart, handled while the clock (the reading that handlers store) is a whole number of microseconds. *)
Definition in_whole_us (ev : event) : Prop :=
  match ev with
  | EvInterest i _ => (in_t2 i mod 1000 = 0)%Z
  | EvProfile _ => True
  | EvCrash _ _ _ _ | EvRestart _ => False
  end.
