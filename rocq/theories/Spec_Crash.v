(** Vocabulary for the statements about the Interests that bring a CA down. *)
From Verif Require Export Spec_Verdict Spec_Policy.
Local Open Scope N_scope.

(** The challenge named [ty] throws. *)
Inductive challenge_throws (E : env) (cfg : chal_cfg) (i : inputs) (params : list tlv) (r : request) : bytes -> Prop :=
| throw_no_code : forall ty life cs, code_life ty life -> rq_status r <> ST_BEFORE -> rq_cs r = Some cs -> wants_code cs ->
    get T_ParameterValue params = None -> challenge_throws E cfg i params r ty
| throw_no_address : rq_status r = ST_BEFORE -> get T_ParameterValue params = None -> challenge_throws E cfg i params r (bs "email")
| throw_script : forall t code, rq_status r = ST_BEFORE -> get T_ParameterValue params = Some t -> gen_code (in_words i) = Ok code ->
    in_script_ok i = false -> challenge_throws E cfg i params r (bs "email")
| throw_anchors : cc_anchors cfg = Exn -> challenge_throws E cfg i params r (bs "possession")
| throw_credential : forall anchors c, cc_anchors cfg = Ok anchors -> ~ garbled E params -> rq_status r = ST_BEFORE -> credential E params c ->
    (forall p, ~ proof params p) -> c_keyloc c = None \/ o_pubkey_ok E (public_key c) = false -> challenge_throws E cfg i params r (bs "possession")
| throw_proof : forall anchors cs c nonce p, cc_anchors cfg = Ok anchors -> ~ garbled E params -> rq_status r <> ST_BEFORE -> rq_cs r = Some cs ->
    proves E cs c nonce -> wf_cert c -> (forall c', ~ credential E params c') -> proof params p ->
    cert_ok c = false \/ o_pubkey_ok E (public_key c) = false -> challenge_throws E cfg i params r (bs "possession").

(** A CHALLENGE Interest, signed by the key of the request [r], whose handling throws. *)
Inductive upsets (E : env) (cfg : chal_cfg) (i : inputs) (x : interest) (r : request) : Prop :=
| up_plaintext : forall pt, unsealed E r x pt -> pt <> [] -> parse pt = None -> upsets E cfg i x r
| up_unselected : forall params, contains E r x params -> get T_SelectedChallenge params = None -> upsets E cfg i x r
| up_challenge : forall params ty, contains E r x params -> selects params ty -> challenge_throws E cfg i params r ty -> upsets E cfg i x r.

(** A NEW or REVOKE Interest whose handling throws. *)
Definition usable (E : env) (g : ca_cfg) (i : inputs) (rt : N) (x : interest) (peer : bytes) (c : cert) : Prop :=
  within (in_t1 i) (c_validity (cf_cert g)) /\ carries E rt x peer c /\ peer <> [] /\ fst (o_ecdh E (in_sk i) peer) <> 0%Z /\ name_policy g (c_name c).
Inductive new_upsets (E : env) (g : ca_cfg) (i : inputs) (rt : N) (idkey : bytes) (x : interest) : Prop :=
| nu_ca : c_validity (cf_cert g) = None -> new_upsets E g i rt idkey x
| nu_period : forall peer c, usable E g i rt x peer c -> rt = RT_NEW -> c_validity c = None -> new_upsets E g i rt idkey x
| nu_hkdf : forall peer c, usable E g i rt x peer c -> cert_policy E g rt (in_t2 i) x c ->
    ~ key_derivable E i (id_for E idkey (c_name c)) peer -> new_upsets E g i rt idkey x.

(** The Interests whose handling throws. *)
Inductive throws (E : env) (g : ca_cfg) {S} (ops : store_ops S) (s : ca_state S) (i : inputs) (x : interest) : Prop :=
| thr_info : addressed g VInfo (i_name x) -> ca_prof s = None -> p_info (cfp g) = [] -> c_keyloc (cf_cert g) = None -> throws E g ops s i x
| thr_new : addressed g VNew (i_name x) -> new_upsets E g i RT_NEW (ca_idkey s) x -> throws E g ops s i x
| thr_revoke : addressed g VRevoke (i_name x) -> new_upsets E g i RT_REVOKE (ca_idkey s) x -> throws E g ops s i x
| thr_challenge : forall id r, names_request g id x -> pending ops s id = Some r -> signed_by E x (public_key (rq_cert r)) ->
    upsets E (cf_chal g) i x r -> throws E g ops s i x.

(** The Interests whose handling has undefined behaviour. *)
Inductive corrupts (g : ca_cfg) (x : interest) : Prop :=
| cor_id : forall ty c rest, i_name x = p_prefix (cfp g) ++ [gc (bs "CA"); gc (bs "CHALLENGE"); Tlv ty c] ++ rest -> length c <> 8%nat -> corrupts g x
| cor_redirect : forall params p, addressed g VProbe (i_name x) -> probe_params_reads (params_of x) params -> In (None, p) (cf_redirect (cf g)) ->
    redirects_to p params -> corrupts g x.

(** The Interests that ask for a code while the random number generator yields no usable word. *)
Inductive stalls (E : env) (g : ca_cfg) {S} (ops : store_ops S) (s : ca_state S) (i : inputs) (x : interest) : Prop :=
| stall : forall id r params ty, names_request g id x -> pending ops s id = Some r -> signed_by E x (public_key (rq_cert r)) -> contains E r x params ->
    selects params ty -> rq_status r = ST_BEFORE -> ty = bs "pin" \/ ty = bs "email" /\ get T_ParameterValue params <> None ->
    (forall w, In w (in_words i) -> ~ w mod 2 ^ 32 < 4294 * 1000000) -> stalls E g ops s i x.

(** Names short enough to be encoded: an Interest has at most 8800 bytes. *)
Definition short_names (g : ca_cfg) {S} (ops : store_ops S) (s : ca_state S) : Prop :=
  blen (name_wire (p_fwd (cfp g))) < 2 ^ 32 /\ forall id r, pending ops s id = Some r -> blen (name_wire (c_name (rq_cert r))) < 2 ^ 31.
