(** Vocabulary for C123: the CA is given another certificate or key while it runs. *)
From Verif Require Export Spec_Reconfig Spec_Requester.
Local Open Scope N_scope.

(** Since the CA was started the last time, it has had certificates for one public key only, that of its present key. *)
Definition one_key_since_start {S} (E : env) (tr : list (ca_cfg * hstep S)) (g : ca_cfg) : Prop :=
  forall a g1 st b, tr = a ++ (g1, st) :: b -> Forall (fun e => ~ restarts (h_ev (snd e))) b ->
    public_key (cf_cert g1) = o_pub E (cf_sk g1) /\ o_pub E (cf_sk g1) = o_pub E (cf_sk g).

(** What the profile packet needs to be readable: the fields fit the wire format. *)
Definition cert_fits (E : env) (g : ca_cfg) : Prop :=
  (forall k, c_keyloc (cf_cert g) = Some k -> fits (bs "Issued by " ++ o_to_uri E k)) /\ wf_cert (cf_cert g) /\ cert_ok (cf_cert g) = true /\ fits (enc_tlv (cert_tlv E (cf_cert g))).
