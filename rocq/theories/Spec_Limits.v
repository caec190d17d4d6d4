(** Vocabulary for the statements about the limits of CA and packets. *)
From Verif Require Export Spec_Requester Spec_Wire Spec_Policy.
Local Open Scope N_scope.

(** ** Sizes *)
(** ndn-cxx refuses to send a packet of more than 8800 bytes ([MAX_NDN_PACKET_SIZE]). *)
Definition packet_limit : N := 8800.
(** Name, CanBePrefix, MustBeFresh, Nonce and the parameters of an Interest that
    is not signed; four bytes are enough for its own type and length. *)
Definition interest_size (x : interest) : N :=
  4 + blen (name_wire (i_name x)) + 2 + 2 + 6 + match i_params x with Some p => blen (enc_tlv (Tlv T_AppParams p)) | None => 0 end.
(** Name and content of a Data packet: less than its whole size. *)
Definition data_size_above (d : data) : N := blen (name_wire (d_name d)) + blen (enc_tlv (Tlv T_Content (d_content d))).

(** ** Lost replies *)
(** A message that starts a challenge of type [ty]. *)
Definition starts_over (params : list tlv) (ty : bytes) : Prop := selects params ty /\ (ty = bs "pin" -> get T_ParameterValue params = None).

(** ** What a CA has to say *)
Definition total (l : list bytes) : N := fold_right (fun b n => blen b + n) 0 l.
(** [L] bytes suffice for what the CA's replies are made of: its ECDH key with the list of challenges, its prefix, and
    the name of any requested certificate with the forwarding hint.  18 bytes are enough for any TLV header. *)
Definition room_needed (E : env) (g : ca_cfg) (asked : cert -> Prop) (L : N) : Prop :=
  (forall sk, blen (o_ecdh_pub E sk) + 18 * N.of_nat (length (p_challenges (cfp g))) + total (p_challenges (cfp g)) <= L) /\
  blen (name_wire (p_prefix (cfp g))) <= L /\
  (forall c, asked c -> blen (name_wire (c_name c)) + blen (name_wire (p_fwd (cfp g))) <= L).
(** [L] bytes suffice for the names and redirections the policies yield for the parameters of a PROBE: 62 bytes more than its own for each name, 18 for
    each redirection. *)
Definition probe_room (E : env) (g : ca_cfg) (i : inputs) (x : interest) (L : N) : Prop :=
  forall params rs ns, probe_params_decode (params_of x) = Ok params -> targets E params (cf_redirect (cf g)) rs -> offers E params (assignments g) (in_words64 i) ns ->
    total (map (fun n => name_wire (p_prefix (cfp g) ++ n)) ns) + 62 * N.of_nat (length ns) + total (map name_wire rs) + 18 * N.of_nat (length rs) <= L.
