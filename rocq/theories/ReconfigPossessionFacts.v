(** The possession challenge of a CA that changes its configuration.

    The first three lemmas repeat lemmas of OutcomeFacts and PossessionFacts for CAs that have changed their configuration. *)
From Coq Require Import Lia.
From Verif Require Import RequesterFacts OutcomeFacts EmailFacts SessionFacts PossessionFacts.
From Verif Require Export Spec_ReconfigPossession ReconfigSessionFacts.
Local Open Scope N_scope.

Lemma passed_issues_c : forall E g S (ops : store_ops S) s i x id r params ty ty' dv, aes_laws E -> r_at E g ops s -> names_request g id x -> pending ops s id = Some r -> rq_type r = RT_NEW ->
  signed_by E x (public_key (rq_cert r)) -> opened E x r params ty dv -> handle_challenge E (cf_chal g) i ty params (set_div dv r) = Some (ret_success ty' (set_div dv r) None) ->
  blen (name_wire (c_name (rq_cert r))) < 2 ^ 31 -> blen (name_wire (p_fwd (cfp g))) < 2 ^ 32 ->
  exists s' es c d l t, step E g ops s (EvInterest i x) = Some (s', es) /\ In (EIssue c) es /\ certifies E g (rq_cert r) c /\ pending ops s' id = None /\
    puts es = [d] /\ d_name d = i_name x /\ data_signed_by E d (cf_sk g) /\ reply_opens E (rq_key r) id d l /\ says l T_Status ST_SUCCESS /\
    get T_IssuedCertName l = Some t /\ t_val t = name_wire (c_name c).
Proof.
  intros E g S ops s i x id r params ty ty' dv LA A N P RT SB OP HC B1 B2. destruct (pending_live_s E g S ops s id r A P) as [ID LV].
  pose proof (pending_good_s E g S ops s id r A P) as (_ & _ & GD). pose proof (chal_forward_c E g S ops s i x id r params ty dv A N P SB OP) as FW.
  rewrite HC in FW. cbn [ret_success h_out h_email h_req email_effs] in FW. change (negb (NO_ERROR =? NO_ERROR)) with false in FW. cbv iota in FW.
  destruct (new_validity_c E g S ops s id r A P RT) as (v & V).
  assert (IC : exists c, issue_certificate E g (in_version i) r = Ok c) by (unfold issue_certificate; rewrite V; eexists; reflexivity). destruct IC as (c & IC).
  destruct (issued_facts_c E g (in_version i) r c GD IC) as [CE NP]. destruct (issued_size_c E g r c (in_version i) (proj2 (proj2 (proj2 GD))) IC B1) as [NE B3].
  set (r1 := set_cs None (set_ctype ty' (set_status ST_PENDING (set_div dv r)))) in *.
  unfold after_challenge in FW. change (rq_status r1 =? ST_PENDING) with true in FW. change (rq_type r1) with (rq_type r) in FW. rewrite RT in FW. change ((RT_NEW =? RT_NEW) || (RT_NEW =? RT_RENEW)) with true in FW. cbv iota in FW.
  change (issue_certificate E g (in_version i) r1) with (issue_certificate E g (in_version i) r) in FW. rewrite IC in FW.
  set (r2 := set_status ST_SUCCESS (set_cert c r1)) in *. change (rq_id r1) with (rq_id r) in FW.
  destruct (c_name c) as [|n0 n1] eqn:CN; [contradiction|]. rewrite <- CN in *.
  assert (PL : chal_plain r2 (c_name c) (p_fwd (cfp g)) = Ok [Tlv T_Status (nni_enc ST_SUCCESS); Tlv T_IssuedCertName (name_wire (c_name c)); Tlv T_ForwardingHint (name_wire (p_fwd (cfp g)))]).
  { unfold chal_plain. rewrite CN. reflexivity. }
  set (l := [Tlv T_Status (nni_enc ST_SUCCESS); Tlv T_IssuedCertName (name_wire (c_name c)); Tlv T_ForwardingHint (name_wire (p_fwd (cfp g)))]) in *.
  destruct (chal_plain_fits 0%Z r2 (c_name c) (p_fwd (cfp g)) [] l (fun c' Q => ltac:(discriminate)) B3 B2 PL) as [WF FL].
  assert (SZ : blen (enc_tlvs l) < 2 ^ 35).
  { unfold l. cbn [enc_tlvs]. rewrite !blen_app. pose proof (enc_tlv_len (Tlv T_Status (nni_enc ST_SUCCESS))) as L1. pose proof (enc_tlv_len (Tlv T_IssuedCertName (name_wire (c_name c)))) as L2.
    pose proof (enc_tlv_len (Tlv T_ForwardingHint (name_wire (p_fwd (cfp g))))) as L3. cbn [t_val] in *. change (blen (nni_enc ST_SUCCESS)) with 1 in L1. change (blen []) with 0. lia. }
  pose proof (initial_small_c E g S ops s id r i A P) as CI.
  destruct (chal_encode_fine E r2 (c_name c) (p_fwd (cfp g)) (rnd_iv i) l (live_eiv r LV) (rnd_iv_len i) PL SZ) as (payload & r3 & EN).
  { change (rq_eiv r2) with (rq_eiv r). lia. }
  rewrite EN in FW. unfold finish in FW. cbn [app] in FW. pose proof (ok_step E g S ops s i x _ FW) as ST.
  pose proof EN as EN'. apply chal_encode_ok in EN' as (l' & iv2 & PL' & _ & _ & PQ); [|exact (live_eiv r LV)|apply rnd_iv_len]. rewrite PL in PL'. injection PL' as <-.
  eexists. eexists. exists c, (reply_data E g (i_name x) payload), l. eexists. split; [exact ST|]. split; [left; reflexivity|]. split; [exact CE|].
  split; [eapply (deleted_gone_s E g S ops _ _ _ _ id A ST); right; left; rewrite ID; reflexivity|]. split; [reflexivity|]. split; [reflexivity|]. split; [reflexivity|].
  split; [rewrite PQ; change (rq_key r2) with (rq_key r); change (rq_id r2) with (rq_id r); rewrite ID; apply sealed_opens; [exact LA|apply iv12_initial; [exact (live_eiv r LV)|apply rnd_iv_len]|exact WF|exact FL]|].
  split; [apply says_nni; reflexivity|]. split; reflexivity.
Qed.
Lemma possession_starts_c : forall E g S (ops : store_ops S) s i x id r w b c, aes_laws E -> r_at E g ops s -> names_request g id x -> pending ops s id = Some r -> rq_status r = ST_BEFORE ->
  signed_by E x (public_key (rq_cert r)) -> acceptable E r x (start_params w) -> block_from_value w = Some b -> data_decode E b = Some c -> c_content c <> None ->
  trusted E (cf_chal g) c -> o_pubkey_ok E (public_key c) = true ->
  exists s' es d l r' cs, step E g ops s (EvInterest i x) = Some (s', es) /\ puts es = [d] /\ d_name d = i_name x /\ data_signed_by E d (cf_sk g) /\
    reply_opens E (rq_key r) id d l /\ says l T_Status ST_CHALLENGE /\ says l T_RemainingTries 1 /\ says l T_RemainingTime 60 /\ pair_in l (bs "nonce") (rnd_nonce i) /\
    pending ops s' id = Some r' /\ rq_status r' = ST_CHALLENGE /\ rq_cs r' = Some cs /\ proves E cs c (rnd_nonce i) /\
    rq_key r' = rq_key r /\ rq_cert r' = rq_cert r /\ rq_type r' = rq_type r.
Proof.
  intros E g S ops s i x id r w b c LA A N P STA SB AC BV DD CC TR PK. destruct (pending_live_s E g S ops s id r A P) as [ID LV].
  destruct (acceptable_opened E r x (start_params w) (bs "possession") LV AC) as (dv & OP). { eexists. split; reflexivity. }
  pose proof (chal_forward_c E g S ops s i x id r _ _ dv A N P SB OP) as FW. rewrite hc_possession in FW.
  destruct (trusted_anchor _ _ _ TR) as (anchors & loc & AN & KL & EX).
  set (cs := CState (bs "need-proof") (in_t2 i) 1 60 [(bs "nonce", to_hex (rnd_nonce i)); (bs "issued-cert", to_hex (enc_tlv (cert_tlv E c)))]).
  assert (HP : handle_possession E (cf_chal g) i (start_params w) (set_div dv r) = ret_new (bs "Possession") (in_t2 i) (set_div dv r) (bs "need-proof") (cs_secrets cs) 1 60 None).
  { unfold handle_possession. rewrite AN. unfold start_params at 1. cbv iota.
    assert (PL : poss_loop E (start_params w) None [] = Some (Some c, [])).
    { unfold start_params. cbn [poss_loop t_type t_val]. change (T_SelectedChallenge =? T_ParameterKey) with false. change (T_ParameterKey =? T_ParameterKey) with true. change (T_ParameterValue =? T_ParameterValue) with true.
      cbn [andb]. change (bytes_eqb (bs "issued-cert") K_CRED) with true. cbv iota. rewrite BV, DD. reflexivity. }
    rewrite PL. cbn [set_div rq_status]. rewrite STA. change (ST_BEFORE =? ST_BEFORE) with true. cbv iota. unfold has_content. destruct (c_content c) as [k|] eqn:K; [|contradiction].
    rewrite KL, PK. cbn [negb]. rewrite EX. reflexivity. }
  rewrite HP in FW. cbn [ret_new h_out h_email h_req email_effs] in FW. change (negb (NO_ERROR =? NO_ERROR)) with false in FW. cbv iota in FW.
  change (set_cs (Some (CState (bs "need-proof") (in_t2 i) 1 60 (cs_secrets cs))) (set_ctype (bs "Possession") (set_status ST_CHALLENGE (set_div dv r)))) with (moved dv (bs "possession") cs r) in FW.
  unfold after_challenge in FW. change (rq_status (moved dv (bs "possession") cs r) =? ST_PENDING) with false in FW. cbv iota in FW.
  assert (MV : moves E (cf_chal g) i (start_params w) (set_div dv r) (bs "possession") cs None).
  { left. split; [exact STA|]. apply start_possession; [|exact CC|exact TR]. exists w, b. split; [|split; assumption]. exists [Tlv T_SelectedChallenge (bs "possession")], []. reflexivity. }
  destruct (moved_plain E (cf_chal g) i _ r dv (bs "possession") cs None MV) as (nonce & NN & PL).
  assert (NQ : nonce = [Tlv T_ParameterKey (bs "nonce"); Tlv T_ParameterValue (rnd_nonce i)]).
  { destruct NN as [->|NN]; [|exact NN]. exfalso. revert PL. unfold chal_plain. cbn [moved set_cs rq_cs]. unfold cs. cbn [cs_status cs_secrets]. unfold told_tlvs.
    change (bytes_eqb (bs "need-proof") (bs "need-proof")) with true. cbv iota. cbn [sec_get]. change (bytes_eqb (bs "nonce") (bs "nonce")) with true. cbv iota. rewrite from_to_hex. intros Q. discriminate Q. }
  destruct (told_size i (moved dv (bs "possession") cs r) cs nonce (moves_status _ _ _ _ _ _ _ _ MV) NN) as [WF SZ].
  pose proof (initial_small_c E g S ops s id r i A P) as CI.
  destruct (chal_encode_fine E (moved dv (bs "possession") cs r) [] [] (rnd_iv i) _ (live_eiv r LV) (rnd_iv_len i) PL ltac:(lia)) as (payload & r3 & CE).
  { change (rq_eiv (moved dv (bs "possession") cs r)) with (rq_eiv r). lia. }
  rewrite CE in FW. unfold finish in FW. cbn [app] in FW.
  destruct (step_of_c E g S ops s i x _ id r A FW N P) as (s' & nrm & m & ST & NO & CS & Z). rewrite (step_update nrm i x r _ m r3 CS (or_introl eq_refl)) in Z.
  assert (KT : known_type (bs "possession")) by (unfold known_type; auto).
  destruct (moved_live E g i x r _ _ dv cs None payload r3 LV OP KT MV CE) as (iv2 & R3 & _).
  pose proof CE as CE'. apply chal_encode_ok in CE' as (l' & iv3 & PL' & _ & _ & PQ); [|exact (live_eiv r LV)|apply rnd_iv_len]. rewrite PL in PL'. injection PL' as <-.
  assert (FL : fits (enc_tlvs (told_tlvs (moved dv (bs "possession") cs r) cs nonce))) by (unfold fits; lia).
  exists s'. eexists. exists (reply_data E g (i_name x) payload), (told_tlvs (moved dv (bs "possession") cs r) cs nonce), (nrm r3).
  assert (PRV : forall cs', cs_status cs' = cs_status cs -> cs_secrets cs' = cs_secrets cs -> proves E cs' c (rnd_nonce i)) by (intros cs' Q1 Q2; split; [exact Q1|exact Q2]).
  destruct (NO r3) as [Q|Q]; rewrite Q in *; subst r3; (eexists; split; [exact ST|]; split; [reflexivity|]; split; [reflexivity|]; split; [reflexivity|];
  split; [rewrite PQ; change (rq_key (moved dv (bs "possession") cs r)) with (rq_key r); change (rq_id (moved dv (bs "possession") cs r)) with (rq_id r); rewrite ID; apply sealed_opens; [exact LA|apply iv12_initial; [exact (live_eiv r LV)|apply rnd_iv_len]|exact WF|exact FL]|];
  split; [apply says_nni; reflexivity|]; split; [apply says_nni; reflexivity|]; split; [apply says_nni; reflexivity|];
  split; [subst nonce; eexists [_; _; _; _], []; reflexivity|]; split; [exact Z|]; split; [reflexivity|]; split; [reflexivity|]; split; [apply PRV; reflexivity|]; repeat split; reflexivity).
Qed.
Lemma possession_succeeds_c : forall E g S (ops : store_ops S) s i x id r cs c nonce sig, aes_laws E -> codec_laws E -> r_at E g ops s -> names_request g id x -> pending ops s id = Some r -> rq_cs r = Some cs -> rq_type r = RT_NEW ->
  signed_by E x (public_key (rq_cert r)) -> acceptable E r x (proof_params sig) -> proves E cs c nonce ->
  (exists params0, credential_in E params0 c) -> cert_ok c = true -> o_pubkey_ok E (public_key c) = true -> (exists anchors, cc_anchors (cf_chal g) = Ok anchors) ->
  sig <> [] -> o_verify E (public_key c) (MRaw nonce) sig = true ->
  blen (name_wire (c_name (rq_cert r))) < 2 ^ 31 -> blen (name_wire (p_fwd (cfp g))) < 2 ^ 32 ->
  exists s' es k d l t, step E g ops s (EvInterest i x) = Some (s', es) /\ In (EIssue k) es /\ certifies E g (rq_cert r) k /\ pending ops s' id = None /\
    puts es = [d] /\ d_name d = i_name x /\ data_signed_by E d (cf_sk g) /\ reply_opens E (rq_key r) id d l /\ says l T_Status ST_SUCCESS /\
    get T_IssuedCertName l = Some t /\ t_val t = name_wire (c_name k).
Proof.
  intros E g S ops s i x id r cs c nonce sig LA LC A N P C RT SB AC (SS & SEC) (params0 & CI) OK PK (anchors & AN) NE V B1 B2. destruct (credential_storable E params0 c LC CI) as (_ & F & U). destruct (pending_live_s E g S ops s id r A P) as [ID LV]. pose proof (live_cs_none r cs LV C) as STA.
  destruct (acceptable_opened E r x _ (bs "possession") LV AC) as (dv & OP). { eexists. split; reflexivity. }
  apply (passed_issues_c E g S ops s i x id r _ (bs "possession") (bs "Possession") dv LA A N P RT SB OP); [|exact B1|exact B2].
  rewrite hc_possession. f_equal. unfold handle_possession. rewrite AN. unfold proof_params at 1. cbv iota.
  assert (PL : poss_loop E (proof_params sig) None [] = Some (None, sig)).
  { unfold proof_params. cbn [poss_loop t_type t_val]. change (T_SelectedChallenge =? T_ParameterKey) with false. change (T_ParameterKey =? T_ParameterKey) with true. change (T_ParameterValue =? T_ParameterValue) with true. cbn [andb].
    change (bytes_eqb (bs "proof") K_CRED) with false. change (bytes_eqb (bs "proof") K_PROOF) with true. cbv iota. reflexivity. }
  rewrite PL. cbn [set_div rq_status rq_cs]. rewrite STA, C. change (ST_CHALLENGE =? ST_BEFORE) with false. cbv iota. change NEED_PROOF with (bs "need-proof"). rewrite SS.
  change (bytes_eqb (bs "need-proof") (bs "need-proof")) with true. cbn [has_content]. destruct sig as [|z zs] eqn:SQ; [contradiction|]. rewrite <- SQ in *. cbv iota zeta.
  rewrite SEC. change K_CRED with (bs "issued-cert"). change K_NONCE with (bs "nonce"). destruct (secrets_get E nonce c) as [G1 G2]. unfold possession_secrets in G1, G2. rewrite G1, G2, !from_to_hex, (stored_credential E c F).
  unfold cert_decode, data_decode. change (t_type (cert_tlv E c) =? T_Data) with true. cbv iota. change (t_val (cert_tlv E c)) with (o_cert_wire E c). rewrite U, OK, PK. cbn [negb]. rewrite V. reflexivity.
Qed.
Lemma change_r_at : forall E S (ops : store_ops S) id pk g s g' s', r_at E g ops s -> quiet_change E ops id pk g s g' s' -> r_at E g' ops s'.
Proof. intros E S ops id pk g s g' s' A (tr & ST & _). exact (r_at_csteps _ _ _ _ _ _ _ _ A ST). Qed.
Lemma possession_change : forall E S (ops : store_ops S) tr g s i x id r c, aes_laws E -> reconfigured E ops tr g s -> pending ops s id = Some r -> presents E g id r x c ->
  exists s1 es d l r1, step E g ops s (EvInterest i x) = Some (s1, es) /\ puts es = [d] /\ d_name d = i_name x /\ data_signed_by E d (cf_sk g) /\
    reply_opens E (rq_key r) id d l /\ says l T_Status ST_CHALLENGE /\ pair_in l (bs "nonce") (rnd_nonce i) /\ pending ops s1 id = Some r1 /\ rq_key r1 = rq_key r /\ rq_cert r1 = rq_cert r /\
    forall g2 s2 i2 x2 sig, quiet_change E ops id (public_key (rq_cert r)) g s1 g2 s2 -> responds E g2 id r1 x2 c (rnd_nonce i) sig -> (exists anchors, cc_anchors (cf_chal g2) = Ok anchors) ->
      rq_type r = RT_NEW -> blen (name_wire (c_name (rq_cert r))) < 2 ^ 31 -> blen (name_wire (p_fwd (cfp g2))) < 2 ^ 32 ->
      exists s3 es2 k d2 l2 t, step E g2 ops s2 (EvInterest i2 x2) = Some (s3, es2) /\ In (EIssue k) es2 /\ certifies E g2 (rq_cert r) k /\ pending ops s3 id = None /\
        puts es2 = [d2] /\ d_name d2 = i_name x2 /\ data_signed_by E d2 (cf_sk g2) /\ reply_opens E (rq_key r) id d2 l2 /\ says l2 T_Status ST_SUCCESS /\
        get T_IssuedCertName l2 = Some t /\ t_val t = name_wire (c_name k).
Proof.
  intros E S ops tr g s i x id r c LA H P [N STA SB (w & b & AC & BV & DD) (OK & CC & PK) TR]. assert (A : r_at E g ops s) by (exists tr; exact H). pose proof (r_codec _ _ _ _ A) as LC.
  destruct (possession_starts_c E g S ops s i x id r w b c LA A N P STA SB AC BV DD CC TR PK) as (s1 & es & d & l & r1 & cs & ST & PU & DN & DS & RO & S1 & _ & _ & PI & P1 & _ & C1 & PV & K1 & CE & TY).
  exists s1, es, d, l, r1. repeat (split; [assumption|]). intros g2 s2 i2 x2 sig Q [N2 SB2 AC2 (NE & V)] AN RT B1 B2.
  assert (P2 : pending ops s2 id = Some r1).
  { destruct Q as (tr2 & ST2 & F). rewrite <- CE in F. exact (quiet_csteps E S ops id r1 g s1 tr2 g2 s2 ST2 (r_at_k _ _ _ _ _ (r_at_step _ _ _ _ _ _ _ _ A ST)) P1 F). }
  pose proof (change_r_at _ _ _ _ _ _ _ _ _ (r_at_step _ _ _ _ _ _ _ _ A ST) Q) as A2.
  rewrite <- TY in RT. rewrite <- CE in B1.
  destruct (possession_succeeds_c E g2 S ops s2 i2 x2 id r1 cs c (rnd_nonce i) sig LA LC A2 N2 P2 C1 RT SB2 AC2 PV) as (s3 & es2 & k & d2 & l2 & t & R); try assumption.
  { exists (start_params w), w, b. split; [|split; assumption]. exists [Tlv T_SelectedChallenge (bs "possession")], []. reflexivity. }
  rewrite CE, K1 in R. exists s3, es2, k, d2, l2, t. exact R.
Qed.
Lemma anchors_lost : forall E S (ops : store_ops S) tr g s i x id r params, reconfigured E ops tr g s -> pending ops s id = Some r -> names_request g id x -> signed_by E x (public_key (rq_cert r)) ->
  acceptable E r x params -> selects params (bs "possession") -> cc_anchors (cf_chal g) = Exn -> on_interest E g ops s i x = ([], Exn).
Proof.
  intros E S ops tr g s i x id r params H P N SB AC SE AN. assert (A : r_at E g ops s) by (exists tr; exact H). destruct (pending_live_s E g S ops s id r A P) as [ID LV].
  destruct (acceptable_opened E r x params (bs "possession") LV AC SE) as (dv & OP). rewrite (chal_forward_c E g S ops s i x id r _ _ dv A N P SB OP). rewrite hc_possession.
  unfold handle_possession. rewrite AN. reflexivity.
Qed.
