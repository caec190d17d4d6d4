(** Choices in concrete runs of the client. *)
From Verif Require Export ClientEndWitness ClientChoiceFacts.
From Verif Require Import AcceptFacts ConfigFacts.
Local Open Scope N_scope.

(** The CA offers two names; the user takes the second, mistypes the hours once. *)
Definition q_names : list (name * Z) := [(x_prefix ++ [gc (bs "alice")], 0%Z); (x_prefix ++ [gc (bs "bob")], 0%Z)].
Definition q_offer : data := Eval vm_compute in w_reply x_ca_sk w_2 (probe_encode (map fst q_names) None []).
Definition q_ci3 : cinputs := w_ci 3 [bs "1"; bs "week"; bs "168"].
Definition q_profile : profile := Eval vm_compute in match snd w_2 with NWait _ (WProbe p) => p | _ => k_plain_profile end.
Definition q_3 : client * cnext := Eval vm_compute in client_step toy (fst w_2) (WProbe q_profile) q_ci3 (CData q_offer).
Lemma q_run_2 : client_run toy w_file [] w_h2 (fst w_2) (NWait (w_sent w_2) (WProbe q_profile)).
Proof. exact w_run_2. Qed.
Lemma q_takes_name : exists h c i p ci d c' x s, client_run toy w_file [] h c (NWait i (WProbe p)) /\ client_step toy c (WProbe p) ci (CData d) = (c', NWait x WNew) /\
  cl_req c' = Some s /\ rs_identity s = x_prefix ++ [gc (bs "bob")].
Proof.
  exists w_h2, (fst w_2), (w_sent w_2), q_profile, q_ci3, q_offer, (fst q_3), (w_sent q_3), (match cl_req (fst q_3) with Some s => s | None => request_init q_profile RT_NEW [] [] end).
  split; [exact q_run_2|]. split; [vm_compute; reflexivity|]. split; vm_compute; reflexivity.
Qed.
(** Two redirections. *)
Definition q_redirects : list name := Eval vm_compute in [full_name toy x_anchor; full_name toy w_cert2].
Definition q_sends : data := Eval vm_compute in w_reply x_ca_sk w_2 (probe_encode [] None q_redirects).
Lemma q_takes_redirect : exists h c i p ci d c' x, client_run toy w_file [] h c (NWait i (WProbe p)) /\ client_step toy c (WProbe p) ci (CData d) = (c', NWait x (WMeta (full_name toy w_cert2))).
Proof.
  exists w_h2, (fst w_2), (w_sent w_2), q_profile, (w_ci 3 [bs "+1"]), q_sends, (fst w_2), (w_sent (client_step toy (fst w_2) (WProbe q_profile) (w_ci 3 [bs "+1"]) (CData q_sends))).
  split; [exact q_run_2|]. vm_compute. reflexivity.
Qed.
(** A CA from the list, and one that is not in it. *)
Lemma q_takes_ca : (exists ci c x, client_run toy w_file [] [(ci, None)] c (NWait x (WMeta [])) /\ cl_trusted c <> None) /\ exists ci c x, client_run toy w_file [] [(ci, None)] c (NWait x (WMeta [])) /\ cl_trusted c = None.
Proof.
  split.
  - exists (w_ci 0 [bs "0"]), (fst w_0), (w_sent w_0). split; [exact w_run_0|]. vm_compute. discriminate.
  - exists (w_ci 0 v_lines), (fst v_0), (w_sent v_0). split; [|reflexivity]. change (NWait (w_sent v_0) (WMeta [])) with (snd v_0). apply w_start. vm_compute. reflexivity.
Qed.
(** A CA that offers the possession and PIN challenges. *)
Definition q_new : data := Eval vm_compute in w_reply x_ca_sk w_3
  (enc_tlvs [Tlv T_EcdhPub (o_ecdh_pub toy (bs "ca ephemeral")); Tlv T_Salt (repeat x01 32); Tlv T_RequestId (bs "12345678"); Tlv T_Challenge (bs "possession"); Tlv T_Challenge (bs "pin")]).
Definition q_ci4 : cinputs := w_ci 4 [bs "2"; bs "1"].
Definition q_4 : client * cnext := Eval vm_compute in client_step toy (fst w_3) WNew q_ci4 (CData q_new).
Lemma q_takes_challenge : exists h c i ci d c' x s, client_run toy w_file [] h c (NWait i WNew) /\ client_step toy c WNew ci (CData d) = (c', NWait x WChallenge) /\
  cl_req c' = Some s /\ rs_ctype s = bs "pin".
Proof.
  exists w_h3, (fst w_3), (w_sent w_3), q_ci4, q_new, (fst q_4), (w_sent q_4), (match cl_req (fst q_4) with Some s => s | None => request_init q_profile RT_NEW [] [] end).
  split; [exact w_run_3|]. split; [vm_compute; reflexivity|]. split; vm_compute; reflexivity.
Qed.
Lemma q_answers : exists h c i ci d c' x, client_run toy w_file [] h c (NWait i WChallenge) /\ client_step toy c WChallenge ci (CData d) = (c', NWait x WChallenge).
Proof.
  exists w_h4, (fst w_4), (w_sent w_4), (fst w_e5), (the_put (snd w_ca4)), (fst w_5), (w_sent w_5). split; [exact w_run_4|]. vm_compute. reflexivity.
Qed.
(** The user types a number too high, twice. *)
Lemma q_good : forall d, check_reply toy q_profile d = Ok tt -> good_reply toy q_profile d.
Proof. intros d. apply good_iff. Qed.
Lemma q_gives_up : exists h c i p ci d, client_run toy w_file [] h c (NWait i (WProbe p)) /\ gives_up toy [] c ci d (WProbe p).
Proof.
  exists w_h2, (fst w_2), (w_sent w_2), q_profile, (w_ci 3 [bs "2"; bs "0"]), q_offer. split; [exact q_run_2|].
  apply (gu_name toy [] _ _ _ q_profile q_names); [apply q_good; vm_compute; reflexivity|apply probe_decode_iff; vm_compute; reflexivity|vm_compute; repeat constructor|].
  intros i w LT NL B. assert (i = 0%nat) by lia. subst i. apply number_read in NL. assert (w = 2) by (vm_compute in NL; congruence). subst w. vm_compute in B. discriminate.
Qed.
