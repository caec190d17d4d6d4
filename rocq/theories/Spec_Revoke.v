(** Vocabulary for the statements about revocations. *)
From Verif Require Export Spec_Requester Spec_Server.
Local Open Scope N_scope.

(** A requester's Request on which any sequence of calls was made, except calls of [genNewInterest].  ([genRevokeInterest] does not change it.) *)
Inductive without_new (E : env) (p : profile) (rt : N) (ecdh : bytes) : rstate -> Prop :=
| wn_made : forall id0, without_new E p rt ecdh (request_init p rt ecdh id0)
| wn_on_new : forall s ri d o s', without_new E p rt ecdh s -> on_new_response E s ri d = (o, s') -> without_new E p rt ecdh s'
| wn_select : forall s t o s', without_new E p rt ecdh s -> select_challenge s t = (o, s') -> without_new E p rt ecdh s'
| wn_gen_challenge : forall s ri m o s', without_new E p rt ecdh s -> gen_challenge E s ri m = (o, s') -> without_new E p rt ecdh s'
| wn_on_challenge : forall s ri d o s', without_new E p rt ecdh s -> on_challenge_response E s ri d = (o, s') -> without_new E p rt ecdh s'.

Section Revoke.
  Context (E : env) (g : ca_cfg) {S : Type} (ops : store_ops S).
  (** The first exchange: as [opening], with [genRevokeInterest]. *)
  Definition revoking (ca : ca_state S) (s : rstate) (rj : rinputs) (i : inputs) (c : cert) : option (ca_state S * list eff * rstate * list bytes) :=
    match gen_revoke E s c with
    | Some x =>
        match step E g ops ca (EvInterest i x) with
        | Some (ca', es) =>
            match puts es with
            | [d] => match on_new_response E s rj d with (Ok chals, s2) => Some (ca', es, s2, chals) | _ => None end
            | _ => None
            end
        | None => None
        end
    | None => None
    end.
  (** What the CA should accept as a certificate to be revoked: one under its prefix, signed with its key, while its own certificate is valid. *)
  Record revocable (i : inputs) (c : cert) : Prop := {
    rv_name : name_policy g (c_name c);
    rv_signed : cert_signed_by E c (public_key (cf_cert g));
    rv_ca : within (in_t1 i) (c_validity (cf_cert g));
    rv_wf : wf_cert c /\ cert_ok c = true /\ fits (enc_tlv (cert_tlv E c)) /\ blen (name_wire (c_name c)) < 2 ^ 31
  }.
  (** A requester that knows the CA's prefix and key; [genNewInterest] was called on its Request with the key [sk] of the certificate, without the
      Interest being sent. *)
  Definition prepared (s : rstate) (c : cert) (sk : bytes) : Prop :=
    (exists p ecdh id0 ri keyname nb na x, length id0 = 8%nat /\ gen_new E (request_init p RT_REVOKE ecdh id0) ri keyname sk nb na = (Ok (Some x), s)) /\
    p_prefix (rs_profile s) = p_prefix (cfp g) /\ (exists cc, p_cert (rs_profile s) = Some cc /\ public_key cc = o_pub E (cf_sk g)) /\ public_key c = o_pub E sk.
  (** A session of such a requester with the CA; compare [session]. *)
  Inductive revocation (ctype : bytes) (life : Z) (id sk : bytes) (c : cert) : option (bytes * nat * Z) -> ca_state S -> rstate -> Prop :=
  | re_open : forall ca0 s0 rj i ca es s chals,
      ca_at E g ops ca0 -> revocable i c -> prepared s0 c sk -> id = id_for E (ca_idkey ca0) (c_name c) -> pending ops ca0 id = None -> length (ri_salt0 rj) = 32%nat ->
      revoking ca0 s0 rj i c = Some (ca, es, s, chals) -> revocation ctype life id sk c None ca s
  | re_quiet : forall ph ca s ca', revocation ctype life id sk c ph ca s -> quiet E g ops id (o_pub E sk) ca ca' -> revocation ctype life id sk c ph ca' s
  | re_start : forall ca s ri rj i params code ca' es s', revocation ctype life id sk c None ca s ->
      begins_with ctype params -> gen_code (in_words i) = Ok code -> in_script_ok i = true -> (0 <= in_t2 i)%Z ->
      be_enc 8 (ri_iv ri) <> rnd_iv i -> clock_ok rj -> round E g ops ca s ri rj i ctype params = Some (ca', es, s') ->
      revocation ctype life id sk c (Some (code, O, in_t2 i)) ca' s'
  | re_wrong : forall code k t ca s ri rj i given ca' es s', revocation ctype life id sk c (Some (code, k, t)) ca s ->
      given <> code -> blen given < 2 ^ 30 -> (t <= in_t1 i < t + sec life - 1000 /\ 0 <= in_t2 i)%Z -> clock_ok rj ->
      round E g ops ca s ri rj i ctype [(bs "code", given)] = Some (ca', es, s') ->
      revocation ctype life id sk c (Some (code, Datatypes.S k, in_t2 i)) ca' s'.
End Revoke.
