(** Vocabulary for C131: what somebody else can learn about a pending request. *)
From Verif Require Export Spec_Trace.
Local Open Scope N_scope.

Section Outsider.
  Context (E : env) (g : ca_cfg) {S : Type} (ops : store_ops S).
  (** Two states of the CA that differ in the request [id] only, which is pending in both or in neither.  Everything
      about it may differ: the certificate, the type, the status, the challenge with its code, the session key. *)
  Record same_but (id : bytes) (s s' : ca_state S) : Prop := {
    sb_idkey : ca_idkey s = ca_idkey s';
    sb_prof : ca_prof s = ca_prof s';
    sb_others : forall id', id' <> id -> pending ops s id' = pending ops s' id';
    sb_there : pending ops s id = None <-> pending ops s' id = None }.
  (** Nobody who sends Interests in [tr] holds the key [pk] of request [id]: no CHALLENGE Interest for the request is
      signed with it. *)
  Definition not_the_owner (id pk : bytes) (tr : list (hstep S)) : Prop :=
    forall st i x, In st tr -> handles st i x -> names_request g id x -> ~ signed_by E x pk.
  (** The same event with the same effects: replies, certificates, emails, callbacks, storage. *)
  Definition same_seen (st st' : hstep S) : Prop := h_ev st' = h_ev st /\ h_effs st' = h_effs st.
End Outsider.
