(** Vocabulary for the command line client talking to an honest CA. *)
From Verif Require Export Spec_Client Spec_Policy.
Local Open Scope N_scope.

Section WithEnv.
  Context (E : env) (g : ca_cfg) {S : Type} (ops : store_ops S).

  (** The CA handles the Interest and sends this one packet. *)
  Definition answers (ca : ca_state S) (i : inputs) (x : interest) (ca' : ca_state S) (d : data) : Prop :=
    exists es, step E g ops ca (EvInterest i x) = Some (ca', es) /\ puts es = [d].

  (** The key chain has a key of that name, with that private key. *)
  Definition holds (p : pib) (identity : name) (kid : comp) (sk : bytes) : Prop :=
    exists i, pib_get identity p = Some i /\ find_key (identity ++ [gc (bs "KEY"); kid]) i = Some (identity ++ [gc (bs "KEY"); kid], sk).
  (** The name the user asks for: the only one, or the one whose number they type. *)
  Inductive chooses (ls : list bytes) : list name -> name -> list bytes -> Prop :=
  | ch_only : forall n, chooses ls [n] n ls
  | ch_number : forall ns n l ls' v, (1 < length ns)%nat -> ls = l :: ls' -> stoul l = Some v -> nth_error ns (N.to_nat v) = Some n -> chooses ls ns n ls'.
  (** The key the user asks for: a new identity gets one; of an identity that exists the user types the number of a
      key, or "new". *)
  Inductive picks (p : pib) (ci : cinputs) (ls : list bytes) (identity : name) : comp -> bytes -> Prop :=
  | pk_identity : pib_get identity p = None -> picks p ci ls identity (fst (ci_key1 ci)) (snd (ci_key1 ci))
  | pk_listed : forall i l ls' v kid sk, pib_get identity p = Some i -> id_default i <> None -> NoDup (map fst (id_keys i)) -> ls = l :: ls' -> stoul l = Some v ->
      nth_error (id_keys i) (N.to_nat v) = Some (identity ++ [gc (bs "KEY"); kid], sk) -> picks p ci ls identity kid sk
  | pk_new : forall i l ls', pib_get identity p = Some i -> id_default i <> None -> ls = l :: ls' -> lower_of l (bs "new") ->
      ~ In (identity ++ [gc (bs "KEY"); fst (ci_key2 ci)]) (map fst (id_keys i)) -> picks p ci ls identity (fst (ci_key2 ci)) (snd (ci_key2 ci)).

  (** The challenge the client selects: e-mail with the address given in PROBE if the CA offers it, else the one
      whose number the user types. *)
  Inductive selects_first (c : client) (ls : list bytes) : bytes -> Z -> mmap -> Prop :=
  | sf_email : forall m addr, In (bs "email") (p_challenges (cfp g)) -> cl_probe c = Some m -> email_of m addr -> blen addr < 2 ^ 30 ->
      selects_first c ls (bs "email") 300 [(bs "email", addr)]
  | sf_pin : forall l ls' v, ~ In (bs "email") (p_challenges (cfp g)) -> ls = l :: ls' -> stoul l = Some v ->
      nth_error (p_challenges (cfp g)) (N.to_nat v) = Some (bs "pin") -> selects_first c ls (bs "pin") 3600 [].
  (** The line the user types; an empty one at the end of the input. *)
  Definition types (ci : cinputs) (l : bytes) : Prop := match ci_lines ci with [] => l = [] | a :: _ => l = a end.

  (** The client has applied: [x] is its NEW Interest. *)
  Definition has_applied (c : client) (x : interest) (s0 : rstate) (ri : rinputs) (keyname : name) (sk : bytes) (nb na : Z) : Prop :=
    exists s, gen_new E s0 ri keyname sk nb na = (Ok (Some x), s) /\ cl_req c = Some s.
  (** The client is in a session with the CA: [x] is its CHALLENGE Interest, with the parameters [params]; it still
      has the key. *)
  Definition in_round (ctype : bytes) (life : Z) (id sk : bytes) (creq : cert) (ph : option (bytes * nat * Z))
    (ri : rinputs) (params : mmap) (ca : ca_state S) (c : client) (x : interest) : Prop :=
    (exists s s1 m s2, session E g ops ctype life id sk creq ph ca s /\ select_challenge s ctype = (Ok m, s1) /\
       gen_challenge E s1 ri params = (Ok x, s2) /\ cl_req c = Some s2) /\
    exists identity kid issuer version, c_name creq = identity ++ [gc (bs "KEY"); kid; issuer; version] /\ holds (cl_pib c) identity kid sk.

  (** The CA's profile fits the wire formats and the CA's certificate is for its key.  With neither CA information
      nor a key locator in the certificate the profile cannot be encoded. *)
  Definition publishable : Prop :=
    public_key (cf_cert g) = o_pub E (cf_sk g) /\ name_fits (p_prefix (cfp g)) /\ fits (p_info (cfp g)) /\ Forall fits (p_probe_keys (cfp g)) /\
    (forall k, c_keyloc (cf_cert g) = Some k -> fits (bs "Issued by " ++ o_to_uri E k)) /\ (p_info (cfp g) <> [] \/ c_keyloc (cf_cert g) <> None) /\
    (- 2 ^ 63 <= p_maxvalid (cfp g) < 2 ^ 63)%Z /\ wf_cert (cf_cert g) /\ cert_ok (cf_cert g) = true /\ fits (enc_tlv (cert_tlv E (cf_cert g))).
End WithEnv.
