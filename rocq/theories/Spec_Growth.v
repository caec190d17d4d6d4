(** Vocabulary for the statements about how many requests a CA keeps. *)
From Verif Require Export Spec_Requester Spec_Trace.
Local Open Scope N_scope.

(** A NEW Interest [x] with the certificate request [c], and the clock and random values with which the CA handles it. *)
Record ask : Type := Ask { as_inputs : inputs; as_interest : interest; as_peer : bytes; as_cert : cert }.
Section Growth.
  Context (E : env) (g : ca_cfg) {S : Type}.
  (** The ID a CA in state [s] gives the request. *)
  Definition ask_id (s : ca_state S) (a : ask) : bytes := id_for E (ca_idkey s) (c_name (as_cert a)).
  (** It meets the CA's admission policy. *)
  Definition allowed (s : ca_state S) (a : ask) : Prop :=
    addressed g VNew (i_name (as_interest a)) /\ admissible E g (as_inputs a) RT_NEW (ask_id s a) (as_interest a) (as_peer a) (as_cert a).
  (** The IDs under which requests were accepted in a history, one entry for each time. *)
  Definition admissions (tr : list (hstep S)) : list bytes :=
    flat_map (fun st => flat_map (fun e => match e with EAdd r => [rq_id r] | _ => [] end) (h_effs st)) tr.
End Growth.
