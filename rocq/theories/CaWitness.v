(** Concrete histories of a CA for the examples beside the theorems, and counterexamples. *)
From Verif Require Export ChalProps EmailFacts PolicyWitness StorageWitness.
Local Open Scope N_scope.

(** ** The sample states are reachable *)
Lemma x_at0 : ca_at toy x_cfg (db_ops toy) x_ca0.
Proof.
  constructor; [meets|meets|constructor|]. exists (bs "id key"), [], []. vm_compute. reflexivity.
Qed.
Lemma x_step1 : step toy x_cfg (db_ops toy) x_ca0 (EvInterest (x_inputs x_now 1) x_new_interest) = Some x_ca1.
Proof. vm_compute. reflexivity. Qed.
Lemma x_at1 : ca_at toy x_cfg (db_ops toy) (fst x_ca1).
Proof. eapply ca_at_step; [exact x_at0|]. rewrite x_step1. apply f_equal. apply surjective_pairing. Qed.
Lemma x_step2 : step toy x_cfg (db_ops toy) (fst x_ca1) (EvInterest (x_inputs (x_now + sec 10) 2) (the_interest x_chal1)) = Some x_ca2.
Proof. vm_compute. reflexivity. Qed.
Lemma x_at2 : ca_at toy x_cfg (db_ops toy) (fst x_ca2).
Proof. eapply ca_at_step; [exact x_at1|]. rewrite x_step2. apply f_equal. apply surjective_pairing. Qed.
Lemma x_step3 : step toy x_cfg (db_ops toy) (fst x_ca2) (EvInterest (x_inputs (x_now + sec 20) 3) (the_interest x_chal2)) = Some x_ca3.
Proof. vm_compute. reflexivity. Qed.
Lemma x_at3 : ca_at toy x_cfg (db_ops toy) (fst x_ca3).
Proof. eapply ca_at_step; [exact x_at2|]. rewrite x_step3. apply f_equal. apply surjective_pairing. Qed.
Lemma x_step4 : step toy x_cfg (db_ops toy) (fst x_ca3) (EvInterest (x_inputs (x_now + sec 30) 4) (the_interest x_chal3)) = Some x_ca4.
Proof. vm_compute. reflexivity. Qed.

(** ** NEW *)
Definition x_creq : cert := Eval vm_compute in cert_request toy x_sk (x_rin x_now 1) x_keyname x_now (x_now + sec 3600).
Definition x_peer : bytes := Eval vm_compute in o_ecdh_pub toy (bs "alice ephemeral").
Lemma x_addressed : addressed x_cfg VNew (i_name x_new_interest).
Proof. eexists. vm_compute. reflexivity. Qed.
Lemma x_admissible : admissible toy x_cfg (x_inputs x_now 1) RT_NEW (request_id_of toy (ca_idkey x_ca0) (c_name x_creq)) x_new_interest x_peer x_creq.
Proof.
  constructor.
  - eexists _, _. split; [vm_compute; reflexivity|]. meets.
  - apply carries_decode; [auto|]. vm_compute. reflexivity.
  - meets.
  - meets.
  - exists [gc (bs "alice")], (gc (bs "k1")), (gc (bs "cert-request")), (version_comp 1). split; [vm_compute; reflexivity|].
    split; [discriminate|]. intros k K. vm_compute in K. injection K as <-. vm_compute. discriminate.
  - left. split; [reflexivity|]. split; [eexists _, _; split; [vm_compute; reflexivity|]; unfold period_policy; meets|].
    split; [vm_compute; reflexivity|]. eexists. split; vm_compute; reflexivity.
  - unfold key_derivable. meets.
Qed.
Lemma x_sane : suffix_limit_sane x_cfg.
Proof. intros k K. vm_compute in K. injection K as <-. vm_compute. reflexivity. Qed.

(** A correctly signed request without a validity period makes the handler throw. *)
Definition z_creq : cert := Eval vm_compute in
  let n := x_keyname ++ [gc (bs "cert-request"); version_comp 1] in
  Cert n true (Some (o_pub toy x_sk)) None (Some x_keyloc) [] (o_sign toy x_sk (MCert n true (Some (o_pub toy x_sk)) None (Some x_keyloc) [])).
Definition z_new : interest := Eval vm_compute in
  signed_interest toy x_sk (x_prefix ++ [r_CA; gc (bs "NEW")]) (req_encode toy RT_NEW x_peer z_creq).
Lemma z_new_throws : on_interest toy x_cfg (db_ops toy) x_ca0 (x_inputs x_now 1) z_new = ([], Exn).
Proof. vm_compute. reflexivity. Qed.
Lemma z_new_addressed : addressed x_cfg VNew (i_name z_new).
Proof. eexists. vm_compute. reflexivity. Qed.
Lemma z_new_carries : carries toy RT_NEW z_new x_peer z_creq.
Proof. apply carries_decode; [auto|]. vm_compute. reflexivity. Qed.
Lemma new_unanswered : exists g s i x, ca_at toy g (db_ops toy) s /\ suffix_limit_sane g /\ addressed g VNew (i_name x) /\
  on_interest toy g (db_ops toy) s i x = ([], Exn).
Proof.
  exists x_cfg, x_ca0, (x_inputs x_now 1), z_new. split; [exact x_at0|]. split; [exact x_sane|]. split; [exact z_new_addressed|exact z_new_throws].
Qed.
Lemma z_not_admissible : forall peer c, let id := request_id_of toy (ca_idkey x_ca0) (c_name c) in
  ~ (admissible toy x_cfg (x_inputs x_now 1) RT_NEW id z_new peer c /\ pending (db_ops toy) x_ca0 id = None).
Proof.
  intros peer c id [[_ C _ _ _ P _] _]. apply carries_decode in C; [|auto]. pose proof z_new_carries as C2. apply carries_decode in C2; [|auto].
  rewrite C2 in C. injection C as <- <-. destruct P as [(_ & (nb & na & V & _) & _)|(Q & _)]; [discriminate V|discriminate Q].
Qed.
(** A certificate outside the CA's prefix is refused. *)
Definition z_far : interest := Eval vm_compute in
  signed_interest toy x_sk (x_prefix ++ [r_CA; gc (bs "NEW")])
    (req_encode toy RT_NEW x_peer (cert_request toy x_sk (x_rin x_now 1) [gc (bs "evil"); c_KEY; gc (bs "k1")] x_now (x_now + sec 3600))).

(** ** CHALLENGE Interests with arbitrary parameters *)
Definition z_seal (key id eiv : bytes) (n : N) (payload : bytes) : bytes * bytes :=
  match encode_aes toy key payload id eiv (be_enc 8 n) with (Ok b, iv) => (b, iv) | (_, iv) => ([], iv) end.
Definition z_interest (sk id body : bytes) : interest :=
  signed_interest toy sk (x_prefix ++ [r_CA; gc (bs "CHALLENGE"); gc id]) body.
Definition z_id : bytes := Eval vm_compute in rs_id x_req2.
Definition z_key : bytes := Eval vm_compute in rs_key x_req2.
Definition z_chal (eiv : bytes) (els : list tlv) : interest * bytes :=
  let (b, iv) := z_seal z_key z_id eiv 7003 (enc_tlvs els) in (z_interest x_sk z_id b, iv).

(** A payload that is not a list of elements. *)
Definition z_garbage : interest := Eval vm_compute in z_interest x_sk z_id (fst (z_seal z_key z_id [] 7003 (bs "garbage"))).
Lemma z_garbage_throws : on_interest toy x_cfg (db_ops toy) (fst x_ca1) (x_inputs x_now 2) z_garbage = ([], Exn).
Proof. vm_compute. reflexivity. Qed.
Lemma challenge_throws : exists g s i x, ca_at toy g (db_ops toy) s /\ addressed g VChallenge (i_name x) /\
  on_interest toy g (db_ops toy) s i x = ([], Exn).
Proof.
  exists x_cfg, (fst x_ca1), (x_inputs x_now 2), z_garbage. split; [exact x_at1|].
  split; [eexists; vm_compute; reflexivity|exact z_garbage_throws].
Qed.

(** A request ID of nine bytes in an Interest without signature. *)
Definition z_nine : interest := Interest (x_prefix ++ [r_CA; gc (bs "CHALLENGE"); gc (bs "123456789")]) None None.
Lemma challenge_memory : exists g s i x, ca_at toy g (db_ops toy) s /\ i_sig x = None /\ snd (on_interest toy g (db_ops toy) s i x) = UB.
Proof.
  exists x_cfg, x_ca0, (x_inputs x_now 1), z_nine. split; [exact x_at0|]. split; [reflexivity|]. vm_compute. reflexivity.
Qed.

(** ** PROBE *)
Definition z_probe : interest := y_probe [(bs "name", bs "%zz")].
Lemma probe_unanswered : exists g s i x params, ca_at toy g (db_ops toy) s /\ addressed g VProbe (i_name x) /\
  probe_params_decode (params_of x) = Ok params /\ on_interest toy g (db_ops toy) s i x = ([], Ok tt).
Proof.
  exists x_cfg, x_ca0, (x_inputs x_now 1), z_probe, [(bs "name", bs "%zz")]. split; [exact x_at0|].
  split; [eexists; vm_compute; reflexivity|]. split; vm_compute; reflexivity.
Qed.

(** ** A CA that only lists the pin challenge *)
Definition w_cfg : ca_cfg :=
  CaCfg (Config (Profile x_prefix [gc (bs "edge")] (bs "Example CA") [] 864000 (Some 2) [bs "pin"] (Some x_ca_cert)) [] [])
        (ChalCfg (bs "send.sh") (Ok [x_anchor])) x_ca_cert x_ca_sk x_keyloc.
Definition w_go (s : ca_state mem) (i : inputs) (x : interest) : ca_state mem * list eff :=
  match step toy w_cfg mem_ops s (EvInterest i x) with Some r => r | None => (s, []) end.
Definition w_ca0 : ca_state mem := Eval vm_compute in ca_init mem_ops (bs "id key").
Definition w_ca1 := Eval vm_compute in w_go w_ca0 (x_inputs x_now 1) x_new_interest.
Lemma w_at0 : ca_at toy w_cfg mem_ops w_ca0.
Proof. constructor; [meets|meets|constructor|]. exists (bs "id key"), [], []. vm_compute. reflexivity. Qed.
Lemma w_step1 : step toy w_cfg mem_ops w_ca0 (EvInterest (x_inputs x_now 1) x_new_interest) = Some w_ca1.
Proof. vm_compute. reflexivity. Qed.
Lemma w_at1 : ca_at toy w_cfg mem_ops (fst w_ca1).
Proof. eapply ca_at_step; [exact w_at0|]. rewrite w_step1. apply f_equal. apply surjective_pairing. Qed.

(** The email challenge, with an address that has nothing to do with the requested name. *)
Definition w_addr : bytes := bs "mallory@evil.example".
Definition w_mail := Eval vm_compute in z_chal [] [Tlv T_SelectedChallenge (bs "email"); Tlv T_ParameterKey (bs "email"); Tlv T_ParameterValue w_addr].
Definition w_ca2 := Eval vm_compute in w_go (fst w_ca1) (x_inputs (x_now + sec 10) 2) (fst w_mail).
Definition w_code := Eval vm_compute in z_chal (snd w_mail) [Tlv T_SelectedChallenge (bs "email"); Tlv T_ParameterKey (bs "code"); Tlv T_ParameterValue x_code].
Definition w_ca3 := Eval vm_compute in w_go (fst w_ca2) (x_inputs (x_now + sec 20) 3) (fst w_code).
Lemma w_step2 : step toy w_cfg mem_ops (fst w_ca1) (EvInterest (x_inputs (x_now + sec 10) 2) (fst w_mail)) = Some w_ca2.
Proof. vm_compute. reflexivity. Qed.
Lemma w_step3 : step toy w_cfg mem_ops (fst w_ca2) (EvInterest (x_inputs (x_now + sec 20) 3) (fst w_code)) = Some w_ca3.
Proof. vm_compute. reflexivity. Qed.
Lemma w_at2 : ca_at toy w_cfg mem_ops (fst w_ca2).
Proof. eapply ca_at_step; [exact w_at1|]. rewrite w_step2. apply f_equal. apply surjective_pairing. Qed.
Definition w_issued : option cert := Eval vm_compute in
  match snd w_ca3 with EIssue c :: _ => Some c | _ => None end.
Definition w_cert : cert := Eval vm_compute in match w_issued with Some c => c | None => x_ca_cert end.

Lemma unlisted_challenge : exists g s0 i1 x1 s1 es1 i2 x2 s2 es2 c,
  p_challenges (cfp g) = [bs "pin"] /\ ca_at toy g mem_ops s0 /\
  step toy g mem_ops s0 (EvInterest i1 x1) = Some (s1, es1) /\ step toy g mem_ops s1 (EvInterest i2 x2) = Some (s2, es2) /\
  (exists cmd, In (EEmail cmd) es1) /\ In (EIssue c) es2.
Proof.
  exists w_cfg, (fst w_ca1), (x_inputs (x_now + sec 10) 2), (fst w_mail), (fst w_ca2), (snd w_ca2), (x_inputs (x_now + sec 20) 3), (fst w_code), (fst w_ca3), (snd w_ca3), w_cert.
  split; [reflexivity|]. split; [exact w_at1|]. split; [rewrite w_step2; apply f_equal, surjective_pairing|]. split; [rewrite w_step3; apply f_equal, surjective_pairing|].
  split; [eexists; left; reflexivity|left; reflexivity].
Qed.
Definition w_pending : request := Eval vm_compute in
  match pending mem_ops (fst w_ca1) z_id with Some r => r | None => Request [] [] 0 0 x_ca_cert [] [] [] [] None end.
Lemma unrelated_address : exists g s i x s' es id r params t code, ca_at toy g mem_ops s /\ step toy g mem_ops s (EvInterest i x) = Some (s', es) /\
  names_request g id x /\ pending mem_ops s id = Some r /\ opens toy (rq_key r) id x params /\ get T_ParameterValue params = Some t /\
  In (EEmail (email_command toy (cc_script (cf_chal g)) (t_val t) code r)) es /\
  get_neg 1 (identity_of (c_name (rq_cert r))) <> Some (gc (t_val t)).
Proof.
  exists w_cfg, (fst w_ca1), (x_inputs (x_now + sec 10) 2), (fst w_mail), (fst w_ca2), (snd w_ca2), z_id, w_pending,
    [Tlv T_SelectedChallenge (bs "email"); Tlv T_ParameterKey (bs "email"); Tlv T_ParameterValue w_addr], (Tlv T_ParameterValue w_addr), x_code.
  split; [exact w_at1|]. split; [rewrite w_step2; apply f_equal, surjective_pairing|].
  split; [exists 8; eexists; split; [vm_compute; reflexivity|reflexivity]|]. split; [vm_compute; reflexivity|].
  split; [do 5 eexists; repeat (split; [vm_compute; reflexivity|]); vm_compute; reflexivity|]. split; [reflexivity|]. split; [left; vm_compute; reflexivity|]. vm_compute. discriminate.
Qed.

(** An address with quotes. *)
Definition w_evil : bytes := bs "a@b" ++ DQ ++ bs " " ++ DQ ++ bs "000000".
Definition w_mail2 := Eval vm_compute in z_chal [] [Tlv T_SelectedChallenge (bs "email"); Tlv T_ParameterKey (bs "email"); Tlv T_ParameterValue w_evil].
Definition w_cmd : bytes := Eval vm_compute in
  match on_interest toy w_cfg mem_ops (fst w_ca1) (x_inputs (x_now + sec 10) 2) (fst w_mail2) with (EEmail c :: _, _) => c | _ => [] end.
Lemma injected_argument : exists g s i x es o cmd args, ca_at toy g mem_ops s /\ on_interest toy g mem_ops s i x = (es, o) /\ In (EEmail cmd) es /\
  cc_script (cf_chal g) = bs "send.sh" /\ build_args cmd = Ok args /\ length args = 6%nat /\
  (* The second argument, the code for the script, is chosen by the requester. *)
  nth_error args 2 = Some (bs "000000").
Proof.
  exists w_cfg, (fst w_ca1), (x_inputs (x_now + sec 10) 2), (fst w_mail2).
  eexists _, _, w_cmd, [bs "send.sh"; bs "a@b"; bs "000000"; x_code; o_to_uri toy x_prefix; o_to_uri toy (c_name x_creq)].
  split; [exact w_at1|]. split; [vm_compute; reflexivity|]. split; [left; reflexivity|]. split; [reflexivity|]. split; [vm_compute; reflexivity|]. split; reflexivity.
Qed.

(** ** Possession *)
Definition p_start : list tlv := Eval vm_compute in
  [Tlv T_SelectedChallenge (bs "possession"); Tlv T_ParameterKey (bs "issued-cert"); Tlv T_ParameterValue (enc_tlv (cert_tlv toy x_cred))].
Definition p_chal1 := Eval vm_compute in z_chal [] p_start.
Definition p_ca2 := Eval vm_compute in w_go (fst w_ca1) (x_inputs (x_now + sec 10) 2) (fst p_chal1).
Lemma p_step2 : step toy w_cfg mem_ops (fst w_ca1) (EvInterest (x_inputs (x_now + sec 10) 2) (fst p_chal1)) = Some p_ca2.
Proof. vm_compute. reflexivity. Qed.
Lemma p_at2 : ca_at toy w_cfg mem_ops (fst p_ca2).
Proof. eapply ca_at_step; [exact w_at1|]. rewrite p_step2. apply f_equal. apply surjective_pairing. Qed.
(** The proof, made with the credential's key. *)
Definition p_sig : bytes := Eval vm_compute in o_sign toy x_cred_sk (MRaw (rnd_nonce (x_inputs (x_now + sec 10) 2))).
Definition p_proof (sig : bytes) : list tlv := [Tlv T_SelectedChallenge (bs "possession"); Tlv T_ParameterKey (bs "proof"); Tlv T_ParameterValue sig].
Definition p_chal2 := Eval vm_compute in z_chal (snd p_chal1) (p_proof p_sig).
(** An hour later. *)
Definition p_ca3 := Eval vm_compute in w_go (fst p_ca2) (x_inputs (x_now + sec 3610) 3) (fst p_chal2).
Lemma p_step3 : step toy w_cfg mem_ops (fst p_ca2) (EvInterest (x_inputs (x_now + sec 3610) 3) (fst p_chal2)) = Some p_ca3.
Proof. vm_compute. reflexivity. Qed.
Definition the_issued (es : list eff) : cert := match es with EIssue c :: _ => c | _ => x_ca_cert end.
Definition pending_of (s : ca_state mem) (id : bytes) : request :=
  match pending mem_ops s id with Some r => r | None => Request [] [] 0 0 x_ca_cert [] [] [] [] None end.
Definition p_r2 : request := Eval vm_compute in pending_of (fst p_ca2) z_id.
Definition p_cs2 : cstate := Eval vm_compute in match rq_cs p_r2 with Some c => c | None => CState [] 0 0 0 [] end.
Lemma late_proof : exists g s i x s' es id r cs c, ca_at toy g mem_ops s /\ step toy g mem_ops s (EvInterest i x) = Some (s', es) /\
  names_request g id x /\ pending mem_ops s id = Some r /\ rq_cs r = Some cs /\ cs_status cs = bs "need-proof" /\ cs_rtime cs = 60%Z /\
  in_t1 i = (cs_time cs + sec 3600)%Z /\ In (EIssue c) es.
Proof.
  exists w_cfg, (fst p_ca2), (x_inputs (x_now + sec 3610) 3), (fst p_chal2), (fst p_ca3), (snd p_ca3), z_id, p_r2, p_cs2, (the_issued (snd p_ca3)).
  split; [exact p_at2|]. split; [rewrite p_step3; apply f_equal, surjective_pairing|].
  split; [exists 8; eexists; split; [vm_compute; reflexivity|reflexivity]|]. split; [vm_compute; reflexivity|].
  repeat (split; [vm_compute; reflexivity|]). left. reflexivity.
Qed.
(** The challenge module on its own, for the theorems about it. *)
Definition p_r1 : request := Eval vm_compute in pending_of (fst w_ca1) z_id.
Definition h_none : hres := HRes (Ok (NO_ERROR, [])) p_r1 None.
Definition p_h1 : hres := Eval vm_compute in
  match handle_challenge toy (cf_chal w_cfg) (x_inputs (x_now + sec 10) 2) (bs "possession") p_start p_r1 with Some h => h | None => h_none end.
Definition p_h2 : hres := Eval vm_compute in
  match handle_challenge toy (cf_chal w_cfg) (x_inputs (x_now + sec 20) 3) (bs "possession") (p_proof p_sig) p_r2 with Some h => h | None => h_none end.
Definition p_h3 : hres := Eval vm_compute in
  match handle_challenge toy (cf_chal w_cfg) (x_inputs (x_now + sec 20) 3) (bs "possession") (p_proof (bs "no signature")) p_r2 with Some h => h | None => h_none end.
Lemma p_credential : forall c, credential_in toy p_start c -> c = x_cred.
Proof.
  intros c (w & b & (a1 & a2 & Q) & B & D). unfold p_start in Q.
  destruct a1 as [|t1 [|t2 [|t3 [|]]]]; try discriminate; cbn [app] in Q; injection Q; intros; subst; try discriminate.
  vm_compute in B. injection B as <-. vm_compute in D. injection D as <-. reflexivity.
Qed.
Lemma p_wrong_proof : forall proof, pair_in (p_proof (bs "no signature")) (bs "proof") proof ->
  o_verify toy (public_key x_cred) (MRaw (rnd_nonce (x_inputs (x_now + sec 10) 2))) proof = false.
Proof.
  intros proof (a1 & a2 & Q). unfold p_proof in Q.
  destruct a1 as [|t1 [|t2 [|t3 [|]]]]; try discriminate; cbn [app] in Q; injection Q; intros; subst; try discriminate. vm_compute. reflexivity.
Qed.

(** A credential that is signed by the anchor but is no certificate: its name is too short. *)
Definition q_cred : cert := Eval vm_compute in
  let n := [gc (bs "org"); gc (bs "bob")] in
  Cert n true (Some (o_pub toy x_cred_sk)) None (Some x_anchor_key) []
       (o_sign toy x_anchor_sk (MCert n true (Some (o_pub toy x_cred_sk)) None (Some x_anchor_key) [])).
Definition q_start : list tlv := Eval vm_compute in
  [Tlv T_SelectedChallenge (bs "possession"); Tlv T_ParameterKey (bs "issued-cert"); Tlv T_ParameterValue (enc_tlv (cert_tlv toy q_cred))].
Definition q_chal1 := Eval vm_compute in z_chal [] q_start.
Definition q_ca2 := Eval vm_compute in w_go (fst w_ca1) (x_inputs (x_now + sec 10) 2) (fst q_chal1).
Lemma q_step2 : step toy w_cfg mem_ops (fst w_ca1) (EvInterest (x_inputs (x_now + sec 10) 2) (fst q_chal1)) = Some q_ca2.
Proof. vm_compute. reflexivity. Qed.
Lemma q_at2 : ca_at toy w_cfg mem_ops (fst q_ca2).
Proof. eapply ca_at_step; [exact w_at1|]. rewrite q_step2. apply f_equal. apply surjective_pairing. Qed.
Definition q_chal2 := Eval vm_compute in z_chal (snd q_chal1) (p_proof (bs "no signature")).
Lemma wrong_proof_survives : exists g s i x id r cs params, ca_at toy g mem_ops s /\ names_request g id x /\ pending mem_ops s id = Some r /\
  rq_cs r = Some cs /\ cs_status cs = bs "need-proof" /\ opens toy (rq_key r) id x params /\ selects params (bs "possession") /\
  pair_in params (bs "proof") (bs "no signature") /\ on_interest toy g mem_ops s i x = ([], Exn) /\ step toy g mem_ops s (EvInterest i x) = Some (s, []).
Proof.
  exists w_cfg, (fst q_ca2), (x_inputs (x_now + sec 20) 3), (fst q_chal2), z_id, (pending_of (fst q_ca2) z_id),
    (match rq_cs (pending_of (fst q_ca2) z_id) with Some c => c | None => CState [] 0 0 0 [] end), (p_proof (bs "no signature")).
  split; [exact q_at2|]. split; [exists 8; eexists; split; [vm_compute; reflexivity|reflexivity]|].
  split; [vm_compute; reflexivity|]. split; [vm_compute; reflexivity|]. split; [vm_compute; reflexivity|].
  split; [do 5 eexists; repeat (split; [vm_compute; reflexivity|]); vm_compute; reflexivity|]. split; [eexists; split; reflexivity|].
  split; [exists [Tlv T_SelectedChallenge (bs "possession")], []; reflexivity|]. split; vm_compute; reflexivity.
Qed.

(** ** Revoking the certificate issued above *)
Definition v_rt : N := RT_REVOKE.
Definition v_interest : interest := Eval vm_compute in
  unsigned_interest toy (x_prefix ++ [r_CA; gc (bs "REVOKE")]) (req_encode toy RT_REVOKE x_peer w_cert).
Definition v_ca0 : ca_state mem := Eval vm_compute in fst w_ca3.
Definition v_ca1 := Eval vm_compute in w_go v_ca0 (x_inputs (x_now + sec 40) 5) v_interest.
Definition v_id : bytes := Eval vm_compute in request_id_of toy (ca_idkey v_ca0) (c_name w_cert).
Definition v_r1 : request := Eval vm_compute in pending_of (fst v_ca1) v_id.
Definition v_chal (eiv : bytes) (els : list tlv) : interest * bytes :=
  let (b, iv) := z_seal (rq_key v_r1) v_id eiv 7003 (enc_tlvs els) in (z_interest x_sk v_id b, iv).
Definition v_chal1 := Eval vm_compute in v_chal [] [Tlv T_SelectedChallenge (bs "pin")].
Definition v_ca2 := Eval vm_compute in w_go (fst v_ca1) (x_inputs (x_now + sec 50) 6) (fst v_chal1).
Definition v_r2 : request := Eval vm_compute in pending_of (fst v_ca2) v_id.
Definition v_chal2 := Eval vm_compute in v_chal (snd v_chal1)
  [Tlv T_SelectedChallenge (bs "pin"); Tlv T_ParameterKey (bs "code"); Tlv T_ParameterValue (code_of_word 12345684)].
Definition v_ca3 := Eval vm_compute in w_go (fst v_ca2) (x_inputs (x_now + sec 60) 7) (fst v_chal2).
Lemma v_at0 : ca_at toy w_cfg mem_ops v_ca0.
Proof. eapply ca_at_step; [exact w_at2|]. rewrite w_step3. reflexivity. Qed.
Lemma v_step1 : step toy w_cfg mem_ops v_ca0 (EvInterest (x_inputs (x_now + sec 40) 5) v_interest) = Some v_ca1.
Proof. vm_compute. reflexivity. Qed.
Lemma v_step2 : step toy w_cfg mem_ops (fst v_ca1) (EvInterest (x_inputs (x_now + sec 50) 6) (fst v_chal1)) = Some v_ca2.
Proof. vm_compute. reflexivity. Qed.
Lemma v_step3 : step toy w_cfg mem_ops (fst v_ca2) (EvInterest (x_inputs (x_now + sec 60) 7) (fst v_chal2)) = Some v_ca3.
Proof. vm_compute. reflexivity. Qed.
Lemma v_at1 : ca_at toy w_cfg mem_ops (fst v_ca1).
Proof. eapply ca_at_step; [exact v_at0|]. rewrite v_step1. apply f_equal. apply surjective_pairing. Qed.
Lemma v_at2 : ca_at toy w_cfg mem_ops (fst v_ca2).
Proof. eapply ca_at_step; [exact v_at1|]. rewrite v_step2. apply f_equal. apply surjective_pairing. Qed.
Definition v_done : request := Eval vm_compute in
  match snd v_ca3 with [_; _; ECallback r] => r | _ => v_r2 end.
Lemma not_recorded : exists g s evs h r ev es, ca_at toy g mem_ops s /\ run toy g mem_ops s evs = Some (s, h) /\ In (ev, es) h /\ In (ECallback r) es /\
  rq_type r = RT_REVOKE /\ rq_status r = ST_SUCCESS.
Proof.
  exists w_cfg, v_ca0, [EvInterest (x_inputs (x_now + sec 40) 5) v_interest; EvInterest (x_inputs (x_now + sec 50) 6) (fst v_chal1); EvInterest (x_inputs (x_now + sec 60) 7) (fst v_chal2)].
  eexists _, v_done, _, (snd v_ca3). split; [exact v_at0|].
  split; [cbn [run]; rewrite v_step1; cbn [fst snd]; replace v_ca1 with (fst v_ca1, snd v_ca1) by (symmetry; apply surjective_pairing); rewrite v_step2|].
  { replace v_ca2 with (fst v_ca2, snd v_ca2) by (symmetry; apply surjective_pairing). rewrite v_step3. reflexivity. }
  split; [right; right; left; reflexivity|]. split; [right; right; left; reflexivity|]. split; reflexivity.
Qed.
Lemma v_sane : suffix_limit_sane w_cfg.
Proof. intros k K. vm_compute in K. injection K as <-. vm_compute. reflexivity. Qed.
Lemma v_admissible : admissible toy w_cfg (x_inputs (x_now + sec 40) 5) RT_REVOKE (request_id_of toy (ca_idkey v_ca0) (c_name w_cert)) v_interest x_peer w_cert.
Proof.
  constructor.
  - eexists _, _. split; [vm_compute; reflexivity|]. meets.
  - apply carries_decode; [auto|]. vm_compute. reflexivity.
  - meets.
  - meets.
  - exists [gc (bs "alice")], (gc (bs "k1")). eexists _, _. split; [vm_compute; reflexivity|].
    split; [discriminate|]. intros k K. vm_compute in K. injection K as <-. vm_compute. discriminate.
  - right. split; [reflexivity|]. vm_compute. reflexivity.
  - unfold key_derivable. meets.
Qed.

(** ** Profile *)
Definition f_ca1 : ca_state mem * list eff := Eval vm_compute in
  match step toy w_cfg mem_ops w_ca0 (EvProfile (x_inputs x_now 1)) with Some r => r | None => (w_ca0, []) end.
Definition f_disc : interest := Eval vm_compute in
  Interest (x_prefix ++ [gc (bs "CA"); gc (bs "INFO"); Tlv T_Keyword (bs "metadata")]) None None.
Definition f_data : data := Eval vm_compute in match ca_prof (fst f_ca1) with Some d => d | None => Data [] [] 0 None [] end.

(** ** Two pending requests *)
Definition u_sk : bytes := bs "carol signing key".
Definition u_creq : cert := Eval vm_compute in cert_request toy u_sk (x_rin x_now 1) (x_prefix ++ [gc (bs "carol"); c_KEY; gc (bs "c1")]) x_now (x_now + sec 3600).
Definition u_new : interest := Eval vm_compute in signed_interest toy u_sk (x_prefix ++ [r_CA; gc (bs "NEW")]) (req_encode toy RT_NEW x_peer u_creq).
Definition u_id : bytes := Eval vm_compute in request_id_of toy (ca_idkey v_ca0) (c_name u_creq).
Definition u_ca1 := Eval vm_compute in w_go (fst v_ca1) (x_inputs (x_now + sec 45) 5) u_new.
Definition u_ca2 := Eval vm_compute in w_go (fst u_ca1) (x_inputs (x_now + sec 50) 6) (fst v_chal1).
Lemma u_at1 : ca_at toy w_cfg mem_ops (fst u_ca1).
Proof. eapply ca_at_step with (ev := EvInterest (x_inputs (x_now + sec 45) 5) u_new); [exact v_at1|]. vm_compute. reflexivity. Qed.
Lemma u_step2 : step toy w_cfg mem_ops (fst u_ca1) (EvInterest (x_inputs (x_now + sec 50) 6) (fst v_chal1)) = Some u_ca2.
Proof. vm_compute. reflexivity. Qed.
Lemma u_other : ~ names_request w_cfg u_id (fst v_chal1).
Proof. intros (ty & rest & Q & _). vm_compute in Q. discriminate Q. Qed.
(** The start of the email challenge, signed with another key. *)
Definition u_forged : interest := Eval vm_compute in
  match i_params (fst w_mail) with
  | Some p => signed_interest toy u_sk (x_prefix ++ [r_CA; gc (bs "CHALLENGE"); gc z_id]) p
  | None => fst w_mail
  end.
Lemma u_forged_names : names_request w_cfg z_id u_forged.
Proof. exists 8. eexists. split; [vm_compute; reflexivity|reflexivity]. Qed.
Lemma u_forged_unsigned : ~ signed_by toy u_forged (public_key (rq_cert w_pending)).
Proof. intros (sg & Q & V). vm_compute in Q. injection Q as <-. vm_compute in V. discriminate V. Qed.
Lemma u_address : well_formed_address (bs "joe@cs.ucla.edu").
Proof.
  assert (LT : forall c, (97 <=? Byte.to_N c) && (Byte.to_N c <=? 122) = true -> forall extra, address_char extra c).
  { intros c H extra. left. left. apply andb_prop in H as [H1 H2]. apply N.leb_le in H1, H2. split; assumption. }
  exists (bs "joe"), [bs "cs"; bs "ucla"; bs "edu"]. split; [reflexivity|]. split; [discriminate|].
  split; [repeat (constructor; [apply LT; reflexivity|]); constructor|]. split; [vm_compute; repeat constructor|].
  repeat (constructor; [split; [discriminate|repeat (constructor; [apply LT; reflexivity|]); constructor]|]). constructor.
Qed.
