(** Vocabulary for the command line client. *)
From Verif Require Export Client Spec_Requester Spec_Config.
Local Open Scope N_scope.

(** A run is [client_run E file pb h c nx]: [h], newest first, are the user's lines, clocks and random draws with
    the packets received; [c] the state afterwards and [nx] what the process does next. *)
Definition history : Type := list (cinputs * option clevent).
(** The packet was received. *)
Definition received (h : history) (d : data) : Prop := exists ci, In (ci, Some (CData d)) h.
(** The packet is a CA profile. *)
Definition shows (E : env) (d : data) (p : profile) : Prop := info_decode E (d_content d) = Ok p.

(** Where the client's trust in a CA comes from. *)
Inductive rooted (E : env) (file : option ptree) (h : history) : profile -> Prop :=
| root_listed : forall p d known q c, store_load E file = Ok known -> In q known -> p_cert q = Some c ->
    received h d -> shows E d p -> data_verifies E d c -> rooted E file h p
| root_confirmed : forall p ci d l ls, In (ci, Some (CData d)) h -> ci_lines ci = l :: ls -> lower_of l (bs "yes") ->
    shows E d p -> rooted E file h p
| root_redirected : forall p c q cq d names redirects, rooted E file h q -> p_cert q = Some cq ->
    received h d -> data_verifies E d cq -> probe_decode (d_content d) = Ok (names, redirects) ->
    p_cert p = Some c -> In (full_name E c) redirects -> rooted E file h p.

(** ** Undefined behaviour *)
(** What fits [int64_t]. *)
Definition in_i64 (z : Z) : Prop := (- 2 ^ 63 <= z < 2 ^ 63)%Z.
Definition adds_up (now d : Z) : Prop := in_i64 d /\ in_i64 (now + d).
(** The packets and lines that make the client, in state [c] and waiting for [w], leave the language. *)
Inductive misuse (E : env) (c : client) (ci : cinputs) (d : data) : waiting -> Prop :=
| mu_profile : forall full p, shows E d p -> p_cert p = None ->
    (full = [] -> forall t, cl_trusted c = Some t -> data_verifies E d t) -> misuse E c ci d (WInfo full)
| mu_hours : forall p k l v, p_cert p = Some k -> data_verifies E d k -> In l (ci_lines ci) -> stoul l = Some v ->
    ~ adds_up (ci_now ci) (sec (to_i32 v * 3600)) -> misuse E c ci d (WProbe p)
| mu_overlong : forall s k before t rest, cl_req c = Some s -> p_cert (rs_profile s) = Some k -> data_verifies E d k ->
    parse (d_content d) = Some (before ++ t :: rest) -> too_long (ri_salt0 (ci_ri ci)) (rs_id s) t -> misuse E c ci d WNew
| mu_email : forall s k els, cl_req c = Some s -> p_cert (rs_profile s) = Some k -> data_verifies E d k ->
    parse (d_content d) = Some els -> In (Tlv T_Challenge (bs "email")) els ->
    (forall m, cl_probe c = Some m -> ~ In (bs "email") (map fst m)) -> misuse E c ci d WNew
| mu_time : forall s k iv ct tag pt els t n, cl_req c = Some s -> p_cert (rs_profile s) = Some k -> data_verifies E d k ->
    o_aes_dec E (rs_key s) iv (rs_id s) ct tag = Some pt -> parse pt = Some els -> In t els -> t_type t = T_RemainingTime ->
    nni_dec (t_val t) = Some n -> ~ adds_up (ri_now (ci_ri ci)) (sec (to_i64 n)) -> misuse E c ci d WChallenge.

(** ** What is sent *)
(** A PROBE Interest to the CA [p] with the parameters [m]. *)
Definition probes (p : profile) (m : mmap) (x : interest) : Prop :=
  sent_to (p_prefix p) [gc (bs "PROBE")] x /\
  i_params x = Some (enc_tlvs (flat_map (fun kv => [Tlv T_ParameterKey (fst kv); Tlv T_ParameterValue (snd kv)]) m)).
(** A CHALLENGE Interest of the request [s] with the elements [els], encrypted. *)
Definition sends_sealed (E : env) (s : rstate) (x : interest) (els : list tlv) : Prop :=
  sent_to (p_prefix (rs_profile s)) [gc (bs "CHALLENGE"); gc (rs_id s)] x /\
  exists iv ct tag, iv12 iv /\ o_aes_enc E (rs_key s) iv (rs_id s) (enc_tlvs els) = (ct, tag) /\
    i_params x = Some (enc_tlvs [Tlv T_InitializationVector iv; Tlv T_AuthenticationTag tag; Tlv T_EncryptedPayload ct]).
(** The first "email" parameter. *)
Definition email_of (m : mmap) (v : bytes) : Prop := exists a b, m = a ++ (bs "email", v) :: b /\ ~ In (bs "email") (map fst a).

(** ** Key chain *)
(** Every identity has a default key, one of its own. *)
Definition pib_sound (p : pib) : Prop := forall i, In i p -> exists d, id_default i = Some d /\ In d (map fst (id_keys i)).
(** The IDs of the keys that are created are new. *)
Definition key_ids_new (p : pib) (h : history) : Prop := forall ci ev i, In (ci, ev) h -> In i p ->
  ~ In (id_name i ++ [gc (bs "KEY"); fst (ci_key2 ci)]) (map fst (id_keys i)).
(** The CA has told the request [s] that it succeeded: a signed reply the client received opens to a status. *)
Definition told_success (E : env) (h : history) (s : rstate) : Prop :=
  exists d k iv ct tag pt els t, received h d /\ p_cert (rs_profile s) = Some k /\ data_verifies E d k /\
    o_aes_dec E (rs_key s) iv (rs_id s) ct tag = Some pt /\ parse pt = Some els /\ In t els /\ t_type t = T_Status /\ nni_dec (t_val t) = Some ST_SUCCESS.
