(** Vocabulary for the statements about a server and the limit on packets. *)
From Verif Require Export Spec_Process Spec_Limits Face.
Local Open Scope N_scope.

Inductive fsteps {S} (E : env) (g : ca_cfg) (ops : store_ops S) (repo : bool) : proc S -> list (sstep S) -> proc S -> Prop :=
| fsteps_nil : forall p, fsteps E g ops repo p [] p
| fsteps_cons : forall p ev os p1 tr p2, fstep E g ops repo p ev = Some (p1, os) -> fsteps E g ops repo p1 tr p2 ->
    fsteps E g ops repo p (SStep p ev os p1 :: tr) p2.
(** Everything that happens to a CA server that ends when a packet is too large. *)
Record face_history {S} (E : env) (g : ca_cfg) (ops : store_ops S) (repo : bool) (tr : list (sstep S)) (p : proc S) : Prop := {
  fh_codec : codec_laws E;
  fh_prefix : name_fits (p_prefix (cfp g));
  fh_store : back_end E S ops;
  fh_steps : fsteps E g ops repo (Down (s_empty ops)) tr p
}.
(** The server lives the same life if it is stopped where the face throws; only packets are missing. *)
Inductive same_life {S} : list (sstep S) -> list (sstep S) -> Prop :=
| sl_nil : same_life [] []
| sl_same : forall st a b, same_life a b -> same_life (st :: a) (st :: b)
| sl_ends : forall p ev os os' st ca d cache a b, (forall o, In o os' -> In o os) -> (forall c, In (ORepoCert c) os -> In (ORepoCert c) os') -> same_life a b ->
    same_life (SStep p ev os' (Down st) :: a) (SStep p ev os (Running ca d cache) :: SStep (Running ca d cache) PvStop [] (Down st) :: b).
(** The packets fit the limit. *)
Definition data_fits (g : ca_cfg) (d : data) : Prop := blen (data_wire g d) <= packet_limit.
Definition cert_fits (E : env) (c : cert) : Prop := blen (enc_tlv (cert_tlv E c)) <= packet_limit.
