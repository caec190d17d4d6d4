(** A requester and a CA on a network that an attacker controls: it drops, changes, delays, repeats and invents
    Interests and Data, and it may be a customer of the CA itself.  What it cannot do is in [ideal]. *)
From Verif Require Export Spec_Requester.
Local Open Scope N_scope.

(** What happens, in order: the CA handles an event; the requester sends a NEW Interest with a certificate
    request; it reads a reply to it, with this outcome and state afterwards; it sends a CHALLENGE Interest,
    sealed with this key; it reads a reply to that. *)
Inductive deed (S : Type) : Type :=
| DCa (st : hstep S)
| DNew (x : interest) (c : cert)
| DNewReply (x : interest) (d : data) (o : res (list bytes)) (s' : rstate)
| DChallenge (x : interest) (key : bytes)
| DChalReply (x : interest) (d : data) (o : res unit) (s' : rstate).
Arguments DCa {S}. Arguments DNew {S}. Arguments DNewReply {S}. Arguments DChallenge {S}. Arguments DChalReply {S}.

(** The Interest whose reply the requester waits for. *)
Inductive wait : Type := WaitNothing | WaitNew (x : interest) | WaitChallenge (x : interest).

Section Network.
  Context (E : env) (g : ca_cfg) {S : Type} (ops : store_ops S).
  (** The requester's CA profile, and its signing key. *)
  Context (p : profile) (sk : bytes).

  (** A certificate request that can be encoded. *)
  Definition sendable (ri : rinputs) (keyname : name) (nb na : Z) : Prop :=
    wf_name keyname /\ wf_name (ri_kloc ri) /\ blen (name_wire keyname) < 2 ^ 30 /\
    (forall nb' na', mk_validity nb na = (nb', na') -> 0 <= nb' < 2 ^ 63 /\ 0 <= na' < 2 ^ 63)%Z /\
    fits (enc_tlv (cert_tlv E (cert_request E sk ri keyname nb na))).

  (** The requester uses one Request object: it sends a NEW Interest or a CHALLENGE Interest, and reads at most one
      Data packet of that name; it may give up on a reply and send again.  In between, the CA handles any Interest,
      crashes and restarts. *)
  Inductive network : list (deed S) -> ca_state S -> rstate -> wait -> Prop :=
  | nw_start : forall key ecdh id0, length id0 = 8%nat -> network [] (ca_init ops key) (request_init p RT_NEW ecdh id0) WaitNothing
  | nw_ca : forall tr ca s w ev ca' es, network tr ca s w -> step E g ops ca ev = Some (ca', es) ->
      network (tr ++ [DCa (HStep ca ev es ca')]) ca' s w
  | nw_new : forall tr ca s w ri keyname nb na x s', network tr ca s w -> sendable ri keyname nb na ->
      gen_new E s ri keyname sk nb na = (Ok (Some x), s') -> network (tr ++ [DNew x (cert_request E sk ri keyname nb na)]) ca s' (WaitNew x)
  | nw_new_reply : forall tr ca s x ri d o s', network tr ca s (WaitNew x) -> d_name d = i_name x -> length (ri_salt0 ri) = 32%nat ->
      on_new_response E s ri d = (o, s') -> network (tr ++ [DNewReply x d o s']) ca s' WaitNothing
  | nw_select : forall tr ca s w ctype o s', network tr ca s w -> select_challenge s ctype = (o, s') -> network tr ca s' w
  | nw_challenge : forall tr ca s w ri params x s', network tr ca s w -> gen_challenge E s ri params = (Ok x, s') ->
      network (tr ++ [DChallenge x (rs_key s)]) ca s' (WaitChallenge x)
  | nw_no_challenge : forall tr ca s w ri params o s', network tr ca s w -> gen_challenge E s ri params = (o, s') -> (forall x, o <> Ok x) ->
      network tr ca s' WaitNothing
  | nw_chal_reply : forall tr ca s x ri d o s', network tr ca s (WaitChallenge x) -> d_name d = i_name x ->
      on_challenge_response E s ri d = (o, s') -> network (tr ++ [DChalReply x d o s']) ca s' WaitNothing.

  (** ** Ideal cryptography *)
  Definition sent (tr : list (deed S)) (x : interest) : Prop :=
    (exists c, In (DNew x c) tr) \/ exists key, In (DChallenge x key) tr.
  Definition reads (e : deed S) (d : data) : Prop :=
    (exists x o s', e = DNewReply x d o s') \/ exists x o s', e = DChalReply x d o s'.
  Record ideal (tr : list (deed S)) : Prop := {
    (** Only the CA signs Data with the CA's key: Data that verifies says what the CA signed before. *)
    id_data : forall a e b d, tr = a ++ e :: b -> reads e d -> o_verify E (o_pub E (cf_sk g)) (data_msg d) (d_sig d) = true ->
      exists st d', In (DCa st) a /\ (In (EPut d') (h_effs st) \/ In (EProfile d') (h_effs st)) /\ data_msg d' = data_msg d;
    (** Only the requester signs Interests with the requester's key. *)
    id_interest : forall a st b i x, tr = a ++ DCa st :: b -> handles st i x -> signed_by E x (o_pub E sk) ->
      exists x', sent a x' /\ interest_msg x' = interest_msg x;
    (** The digest in the name of an Interest fixes the Interest. *)
    id_digest : forall st i x x', In (DCa st) tr -> handles st i x -> sent tr x' -> i_name x = i_name x' -> x = x';
    (** What is encrypted with one key does not open with another. *)
    id_sealed : forall st i x key id r params, In (DCa st) tr -> handles st i x -> In (DChallenge x key) tr -> names_request g id x ->
      pending ops (h_pre st) id = Some r -> opens E (rq_key r) id x params -> rq_key r = key;
    (** No session key is derived twice. *)
    id_keys : forall a st b st' c r r', tr = a ++ DCa st :: b ++ DCa st' :: c -> In (EAdd r) (h_effs st) -> In (EAdd r') (h_effs st') ->
      rq_key r <> rq_key r'
  }.

  (** The requester knows the CA: it has the CA's prefix and public key. *)
  Definition knows_ca : Prop :=
    p_prefix p = p_prefix (cfp g) /\ exists cc, p_cert p = Some cc /\ public_key cc = o_pub E (cf_sk g).
  (** Requester and CA are as the statements about histories and sessions assume. *)
  Record setting : Prop := {
    se_env : env_laws E;
    se_prefix : name_fits (p_prefix (cfp g));
    se_store : back_end E S ops;
    se_config : config_fits g;
    se_knows : knows_ca
  }.

  (** ** What the statements speak of *)
  (** The CA accepted the requester's NEW Interest [x] with the certificate request [c0] as the request [r]. *)
  Definition took_in (tr : list (deed S)) (x : interest) (c0 : cert) (r : request) : Prop :=
    exists st i, In (DNew x c0) tr /\ In (DCa st) tr /\ handles st i x /\ In (EAdd r) (h_effs st) /\ rq_type r = RT_NEW /\ rq_cert r = c0.
  Definition is_join (e : deed S) : Prop := exists x d chals s', e = DNewReply x d (Ok chals) s'.
  (** The last NEW reply that the requester accepted, and its state then. *)
  Definition joined (tr : list (deed S)) (x : interest) (s0 : rstate) : Prop :=
    exists a d chals b, tr = a ++ DNewReply x d (Ok chals) s0 :: b /\ Forall (fun e => ~ is_join e) b.
End Network.
