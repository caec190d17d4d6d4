(** C97, C98: what the client makes of what is typed, and how it ends. *)
From Verif Require Import ClientEndFacts BufferFacts ClientEndWitness.
Local Open Scope N_scope.

(** ** C97 *)
(** The lines read as numbers - indices and hours - and the numbers read. *)
Theorem C97_number : forall l v, stoul l = Some v <-> number_line l v.
Proof. exact number_read. Qed.
Print Assumptions C97_number.
Example C97_number_case : stoul (bs " +12 hours") = Some 12 /\ stoul (bs "-1") = Some 18446744073709551615 /\ stoul (bs "18446744073709551616") = None /\ stoul (bs "x1") = None.
Proof. exact v_numbers. Qed.
(** The exit code is 1, unless the user does not confirm a CA that is not in the list. *)
Theorem C97_exit : forall E file pb h c n, client_run E file pb h c (NExit n) -> n = 1 \/
  n = 0 /\ exists ci d rest i full p, h = (ci, Some (CData d)) :: rest /\ client_run E file pb rest c (NWait i (WInfo full)) /\
    shows E d p /\ cl_trusted c = None /\ ~ confirms ci (bs "yes").
Proof. exact client_exit. Qed.
Print Assumptions C97_exit.
Example C97_exit_case : exists h c, client_run toy w_file [] h c (NExit 0).
Proof. exact v_declined. Qed.
(** The client ends normally when it has installed the one certificate it fetched, *)
Theorem C97_done : forall E file pb h c, client_run E file pb h c NDone ->
  exists ci k rest i c0, h = (ci, Some (CCert k)) :: rest /\ client_run E file pb rest c0 (NWait i WCert) /\ cl_installed c0 = [] /\ cl_installed c = [k].
Proof. exact client_done. Qed.
Print Assumptions C97_done.
(** and in no other case has it installed any. *)
Theorem C97_only : forall E file pb h c nx, client_run E file pb h c nx -> nx <> NDone -> cl_installed c = [].
Proof. exact client_not_before. Qed.
Print Assumptions C97_only.
Example C97_done_case : exists h c, client_run toy w_file [] h c NDone.
Proof. exact v_done. Qed.
(** The client is left with nothing to wait for only by a lost reply, a profile it does not accept, or a CA that
    offers a name outside its own prefix. *)
Theorem C97_stranded : forall E file pb, codec_laws E -> pib_named pb -> forall h c, client_run E file pb h c NIdle ->
  exists ci ev rest c0 i w, h = (ci, Some ev) :: rest /\ client_run E file pb rest c0 (NWait i w) /\ strands E c0 w ev.
Proof. exact client_stranded. Qed.
Print Assumptions C97_stranded.
Example C97_stranded_case : codec_laws toy /\ pib_named [] /\
  (exists ci d h c, client_run toy w_file [] ((ci, Some (CData d)) :: h) c NIdle /\ exists c0 i p, client_run toy w_file [] h c0 (NWait i (WProbe p))) /\
  exists ci h c, client_run toy w_file [] ((ci, Some CTimeout) :: h) c NIdle.
Proof. exact v_stranded. Qed.

(** ** C98: the state of a requester's request keeps its shape *)
(** Whatever is called in whatever order with whatever packets. *)
Theorem C98_shape : forall E, hash_laws E -> forall p rt ecdh s, in_use E p rt ecdh s -> in_shape s /\ rs_profile s = p /\ rs_type s = rt /\ rs_ecdh s = ecdh.
Proof. exact use_shape. Qed.
Print Assumptions C98_shape.
(** The command line client's request is one for a new certificate. *)
Theorem C98_client : forall E file pb h c nx s, client_run E file pb h c nx -> (forall ci ev, In (ci, ev) h -> length (ci_id0 ci) = 8%nat) -> cl_req c = Some s ->
  exists p ecdh, in_use E p 1 ecdh s.
Proof. exact client_in_use. Qed.
Print Assumptions C98_client.
Example C98_case : hash_laws toy /\ exists h c x s, client_run toy w_file [] h c (NWait x WChallenge) /\ (forall ci ev, In (ci, ev) h -> length (ci_id0 ci) = 8%nat) /\
  cl_req c = Some s /\ rs_eiv s <> [].
Proof. exact (conj (laws_hash toy toy_laws) v_in_use). Qed.
