(** Vocabulary of C118: keys in the key chain, and calls on one request. *)
From Verif Require Export Keychain Spec_Requester.
Local Open Scope N_scope.

(** The key chain has the key [kn] with this private key. *)
Definition in_keychain (p : pib) (kn : name) (sk : bytes) : Prop :=
  exists i kid, In i p /\ kn = id_name i ++ [gc (bs "KEY"); kid] /\ In (kn, sk) (id_keys i).
(** An identity is there once, and so is a key. *)
Definition keychain_sound (p : pib) : Prop := NoDup (map id_name p) /\ Forall (fun i => NoDup (map fst (id_keys i))) p.
(** These calls, one after the other, return this. *)
Inductive performs (E : env) (p : pib) : rstate -> list (rq_call * rq_out) -> rstate -> Prop :=
| pf_nil : forall s, performs E p s [] s
| pf_cons : forall s c o s1 l s2, call_req E p s c = (o, s1) -> performs E p s1 l s2 -> performs E p s ((c, o) :: l) s2.
(** A call that makes a NEW Interest. *)
Definition makes_new (e : rq_call * rq_out) : Prop := exists x, snd e = ONew (Ok (Some x)).
