(** Vocabulary for the statements about the mails a CA sends. *)
From Verif Require Export Spec_Trace.
Local Open Scope N_scope.

(** A code is mailed for the request [id]. *)
Definition mails {S} (g : ca_cfg) (id : bytes) (st : hstep S) : Prop :=
  exists i x cmd, handles st i x /\ names_request g id x /\ In (EEmail cmd) (h_effs st).
(** The same, but the request was not updated afterwards. *)
Definition mails_in_vain {S} (g : ca_cfg) (id : bytes) (st : hstep S) : Prop := mails g id st /\ forall r, ~ In (EUpdate r) (h_effs st).
Definition is_mail (e : eff) : Prop := match e with EEmail _ => True | _ => False end.
