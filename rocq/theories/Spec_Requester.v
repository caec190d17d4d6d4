(** Vocabulary for the statements about the requester, alone and together with a CA. *)
From Verif Require Export Spec_Server Spec_Reply Requester.
Local Open Scope N_scope.

(** ** Replies *)
Definition data_verifies (E : env) (d : data) (c : cert) : Prop := o_verify E (public_key c) (data_msg d) (d_sig d) = true.
(** The content of an INFO packet carries a certificate. *)
Definition profile_carries (E : env) (content : bytes) (c : cert) : Prop :=
  exists els t, parse content = Some els /\ In t els /\ t_type t = T_CaCertificate /\ carries_cert E t c.
(** Content that reports an error: one ErrorCode element, one ErrorInfo element, nothing else that is critical. *)
Definition error_content (b : bytes) (code : N) : Prop :=
  exists els t, parse b = Some els /\ count T_ErrorCode els = 1%nat /\ count T_ErrorInfo els = 1%nat /\
    only_known_critical known_error els /\ In t els /\ t_type t = T_ErrorCode /\ nni_dec (t_val t) = Some code.
(** A reply the requester must not act on. *)
Definition bad_reply (E : env) (c : cert) (d : data) : Prop :=
  ~ data_verifies E d c \/ exists code, code <> NO_ERROR /\ error_content (d_content d) code.

(** ** Names *)
(** A key name under a CA prefix. *)
Definition key_under (prefix keyname : name) : Prop :=
  begins prefix keyname /\ exists identity kid, keyname = identity ++ [gc (bs "KEY"); kid].
(** An Interest for <CA prefix>/CA/<verb>..., with its parameters digest. *)
Definition sent_to (prefix : name) (rest : list comp) (x : interest) : Prop :=
  exists digest, t_type digest = T_ParamsDigest /\ i_name x = prefix ++ [gc (bs "CA")] ++ rest ++ [digest].

(** ** Challenge steps *)
(** The payload of the step a request is at, for parameters that match the step.  The possession challenge names
    itself "Possession" when it starts, and not at all afterwards. *)
Definition wants (cstatus : bytes) : Prop := cstatus = bs "need-code" \/ cstatus = bs "wrong-code".
Inductive step_payload : bytes -> N -> bytes -> mmap -> list tlv -> Prop :=
| sp_pin : forall cstatus params, step_payload (bs "pin") ST_BEFORE cstatus params [Tlv T_SelectedChallenge (bs "pin")]
| sp_pin_code : forall cstatus code, wants cstatus -> step_payload (bs "pin") ST_CHALLENGE cstatus [(bs "code", code)]
    [Tlv T_SelectedChallenge (bs "pin"); Tlv T_ParameterKey (bs "code"); Tlv T_ParameterValue code]
| sp_email : forall cstatus addr, step_payload (bs "email") ST_BEFORE cstatus [(bs "email", addr)]
    [Tlv T_SelectedChallenge (bs "email"); Tlv T_ParameterKey (bs "email"); Tlv T_ParameterValue addr]
| sp_email_code : forall cstatus code, wants cstatus -> step_payload (bs "email") ST_CHALLENGE cstatus [(bs "code", code)]
    [Tlv T_SelectedChallenge (bs "email"); Tlv T_ParameterKey (bs "code"); Tlv T_ParameterValue code]
| sp_credential : forall cstatus w t rest, dec_elem w = Some (t, rest) -> step_payload (bs "possession") ST_BEFORE cstatus [(bs "issued-cert", w)]
    [Tlv T_SelectedChallenge (bs "Possession"); Tlv T_ParameterKey (bs "issued-cert"); Tlv T_ParameterValue (enc_tlv t)]
| sp_proof : forall proof, step_payload (bs "possession") ST_CHALLENGE (bs "need-proof") [(bs "proof", proof)]
    [Tlv T_ParameterKey (bs "proof"); Tlv T_ParameterValue proof].
(** The parameters a step asks for. *)
Inductive step_asks : bytes -> N -> bytes -> list bytes -> Prop :=
| sa_pin : forall cstatus, step_asks (bs "pin") ST_BEFORE cstatus []
| sa_pin_code : forall cstatus, wants cstatus -> step_asks (bs "pin") ST_CHALLENGE cstatus [bs "code"]
| sa_email : step_asks (bs "email") ST_BEFORE [] [bs "email"]
| sa_email_code : forall cstatus, wants cstatus -> step_asks (bs "email") ST_CHALLENGE cstatus [bs "code"]
| sa_credential : forall cstatus, step_asks (bs "possession") ST_BEFORE cstatus [bs "issued-cert"]
| sa_proof : step_asks (bs "possession") ST_CHALLENGE (bs "need-proof") [bs "proof"].

(** The counter of the requester's initialization vector has room for a payload. *)
Definition iv_sound (iv : bytes) : Prop := iv = [] \/ iv12 iv.
Definition used (iv : bytes) : N := match iv with [] => 0 | _ => ctr_part iv end.
Definition has_room (iv payload : bytes) : Prop := used iv + blocks16 payload < 2 ^ 32 - 1.

(** What a failed reply can have changed: everything else is as it was. *)
Definition same_but_id (s s' : rstate) : Prop := s' = upd_id (rs_id s') s.
Definition session_kept (s s' : rstate) : Prop :=
  same_session s s' /\ rs_type s' = rs_type s.

(** ** Requester and CA *)
(** The storage that survives the process. *)
Inductive durable (E : env) : forall S, store_ops S -> Prop := du_sqlite : durable E db (db_ops E).
Section Session.
  Context (E : env) (g : ca_cfg) {S : Type} (ops : store_ops S).

  (** One exchange: the requester's Interest is handled by the CA, which sends one reply, which the requester
      reads.  [None]: some step fails. *)
  Definition opening (ca : ca_state S) (s : rstate) (ri rj : rinputs) (i : inputs) (keyname : name) (sk : bytes) (nb na : Z)
    : option (ca_state S * list eff * rstate * list bytes) :=
    match gen_new E s ri keyname sk nb na with
    | (Ok (Some x), s1) =>
        match step E g ops ca (EvInterest i x) with
        | Some (ca', es) =>
            match puts es with
            | [d] => match on_new_response E s1 rj d with (Ok chals, s2) => Some (ca', es, s2, chals) | _ => None end
            | _ => None
            end
        | None => None
        end
    | _ => None
    end.
  Definition round (ca : ca_state S) (s : rstate) (ri rj : rinputs) (i : inputs) (ctype : bytes) (params : mmap)
    : option (ca_state S * list eff * rstate) :=
    match select_challenge s ctype with
    | (Ok _, s1) =>
        match gen_challenge E s1 ri params with
        | (Ok x, s2) =>
            match step E g ops ca (EvInterest i x) with
            | Some (ca', es) =>
                match puts es with
                | [d] => match on_challenge_response E s2 rj d with (Ok _, s3) => Some (ca', es, s3) | _ => None end
                | _ => None
                end
            | None => None
            end
        | _ => None
        end
    | _ => None
    end.

  (** Anything else the CA does in between: Interests of anyone, except ones for this request signed with this
      key; restarts and crashes if the storage is on disk. *)
  Definition quiet (id pk : bytes) (s s' : ca_state S) : Prop :=
    exists tr, steps E g ops s tr s' /\
      Forall (fun st => (forall i x, handles st i x -> names_request g id x -> ~ signed_by E x pk) /\
                        (restarts (h_ev st) -> durable E S ops)) tr.

  (** An application the CA should accept: a new request of a requester that knows the CA's prefix and key, for a
      key name under the CA's prefix and a permitted validity period, while the CA's certificate is valid. *)
  Record applies (s : rstate) (ri : rinputs) (i : inputs) (keyname : name) (sk : bytes) (nb na : Z) : Prop := {
    ap_fresh : exists p ecdh id0, s = request_init p RT_NEW ecdh id0 /\ length id0 = 8%nat;
    ap_prefix : p_prefix (rs_profile s) = p_prefix (cfp g);
    ap_cert : exists c, p_cert (rs_profile s) = Some c /\ public_key c = o_pub E (cf_sk g);
    ap_name : exists suffix kid, keyname = p_prefix (cfp g) ++ suffix ++ [gc (bs "KEY"); kid] /\ suffix <> [] /\
                (forall k, p_maxsuffix (cfp g) = Some k -> N.of_nat (length suffix) <= k);
    ap_ca : within (in_t1 i) (c_validity (cf_cert g));
    ap_period : exists nb' na', mk_validity nb na = (nb', na') /\ period_policy g (in_t2 i) nb' na' /\ (0 <= nb' /\ na' < 2 ^ 63)%Z;
    ap_wf : wf_name keyname /\ wf_name (ri_kloc ri) /\ blen (name_wire keyname) < 2 ^ 30 /\
            fits (enc_tlv (cert_tlv E (cert_request E sk ri keyname nb na)))
  }.
  (** The CA's configuration fits the wire formats. *)
  Definition config_fits : Prop :=
    suffix_limit_sane g /\ Forall fits (p_challenges (cfp g)) /\ name_fits (p_fwd (cfp g)) /\ blen (name_wire (p_fwd (cfp g))) < 2 ^ 32.

  (** What a challenge is started with; the lifetime of its code is in [code_life]. *)
  Inductive begins_with : bytes -> mmap -> Prop :=
  | bw_pin : begins_with (bs "pin") []
  | bw_email : forall addr, blen addr < 2 ^ 30 -> begins_with (bs "email") [(bs "email", addr)].
  Definition clock_ok (rj : rinputs) : Prop := (0 <= ri_now rj < 2 ^ 62)%Z.

  (** A session of an honest requester with the CA, with the challenge [ctype]: it opens a request, starts the
      challenge, and tries wrong codes; before and after each exchange the CA does anything else.  The phase is
      [None] before the challenge is started, then the code the CA has drawn, the number of wrong codes and the
      CA's time of the last exchange. *)
  Inductive session (ctype : bytes) (life : Z) (id sk : bytes) (creq : cert) : option (bytes * nat * Z) -> ca_state S -> rstate -> Prop :=
  | se_open : forall ca0 s0 ri rj i keyname nb na ca es s chals,
      ca_at E g ops ca0 -> applies s0 ri i keyname sk nb na -> creq = cert_request E sk ri keyname nb na ->
      id = id_for E (ca_idkey ca0) (c_name creq) -> pending ops ca0 id = None -> length (ri_salt0 rj) = 32%nat ->
      opening ca0 s0 ri rj i keyname sk nb na = Some (ca, es, s, chals) -> session ctype life id sk creq None ca s
  | se_quiet : forall ph ca s ca', session ctype life id sk creq ph ca s -> quiet id (o_pub E sk) ca ca' -> session ctype life id sk creq ph ca' s
  | se_start : forall ca s ri rj i params code ca' es s', session ctype life id sk creq None ca s ->
      begins_with ctype params -> gen_code (in_words i) = Ok code -> in_script_ok i = true -> (0 <= in_t2 i)%Z ->
      be_enc 8 (ri_iv ri) <> rnd_iv i -> clock_ok rj -> round ca s ri rj i ctype params = Some (ca', es, s') ->
      session ctype life id sk creq (Some (code, O, in_t2 i)) ca' s'
  | se_wrong : forall code k t ca s ri rj i given ca' es s', session ctype life id sk creq (Some (code, k, t)) ca s ->
      given <> code -> blen given < 2 ^ 30 -> (t <= in_t1 i < t + sec life - 1000 /\ 0 <= in_t2 i)%Z -> clock_ok rj ->
      round ca s ri rj i ctype [(bs "code", given)] = Some (ca', es, s') ->
      session ctype life id sk creq (Some (code, Datatypes.S k, in_t2 i)) ca' s'.
End Session.

(** ** Discovery *)
(** A name component of this type that is a number. *)
Definition numbers (ty : N) (c : comp) : Prop := t_type c = ty /\ In (length (t_val c)) [1; 2; 4; 8]%nat.
(** The packet is RDR metadata for the versioned name [n]: /../32=metadata/54=version/50=segment with the Name as content. *)
Definition metadata_for (d : data) (n : name) : Prop :=
  exists pre version segment t n0 last, d_name d = pre ++ [Tlv 32 (bs "metadata"); version; segment] /\ numbers 54 version /\ numbers 50 segment /\
    parse (d_content d) = Some [t] /\ t_type t = 7 /\ parse (t_val t) = Some n /\ n = n0 ++ [last] /\ numbers 54 last.
