(** The possession challenge, when the requester uses the name the CA registers it under. *)
From Verif Require Export OutcomeFacts ChalProps.
Local Open Scope N_scope.

Lemma hc_possession : forall E cfg i params r, handle_challenge E cfg i (bs "possession") params r = Some (handle_possession E cfg i params r).
Proof. intros. reflexivity. Qed.
Lemma trusted_anchor : forall E cfg c, trusted E cfg c -> exists anchors loc, cc_anchors cfg = Ok anchors /\ c_keyloc c = Some loc /\ existsb (anchor_ok E c loc) anchors = true.
Proof.
  intros E cfg c (anchors & anchor & loc & A & I & K & N & S). exists anchors, loc. split; [exact A|]. split; [exact K|]. apply existsb_exists. exists anchor. split; [exact I|].
  unfold anchor_ok, verify_cert. unfold cert_signed_by in S. rewrite S, andb_true_r. apply orb_true_iff. destruct N as [<-|<-]; [left|right]; apply name_eqb_eq; reflexivity.
Qed.

Section Possession.
  Context {E : env} {g : ca_cfg} {S : Type} {ops : store_ops S}.
  Lemma possession_starts : forall s i x id r w b c, aes_laws E -> ca_at E g ops s -> names_request g id x -> pending ops s id = Some r -> rq_status r = ST_BEFORE ->
    signed_by E x (public_key (rq_cert r)) -> acceptable E r x (start_params w) -> block_from_value w = Some b -> data_decode E b = Some c -> c_content c <> None ->
    trusted E (cf_chal g) c -> o_pubkey_ok E (public_key c) = true ->
    exists s' es d l r' cs, step E g ops s (EvInterest i x) = Some (s', es) /\ puts es = [d] /\ d_name d = i_name x /\ data_signed_by E d (cf_sk g) /\
      reply_opens E (rq_key r) id d l /\ says l T_Status ST_CHALLENGE /\ says l T_RemainingTries 1 /\ says l T_RemainingTime 60 /\ pair_in l (bs "nonce") (rnd_nonce i) /\
      pending ops s' id = Some r' /\ rq_status r' = ST_CHALLENGE /\ rq_cs r' = Some cs /\ proves E cs c (rnd_nonce i) /\
      rq_key r' = rq_key r /\ rq_cert r' = rq_cert r /\ rq_type r' = rq_type r.
  Proof.
    intros s i x id r w b c LA A N P STA SB AC BV DD CC TR PK. destruct (pending_live E g S ops s id r A P) as [ID LV].
    destruct (acceptable_opened E r x (start_params w) (bs "possession") LV AC) as (dv & OP). { eexists. split; reflexivity. }
    pose proof (chal_forward E g S ops s i x id r _ _ dv A N P SB OP) as FW. rewrite hc_possession in FW.
    destruct (trusted_anchor _ _ _ TR) as (anchors & loc & AN & KL & EX).
    set (cs := CState (bs "need-proof") (in_t2 i) 1 60 [(bs "nonce", to_hex (rnd_nonce i)); (bs "issued-cert", to_hex (enc_tlv (cert_tlv E c)))]).
    assert (HP : handle_possession E (cf_chal g) i (start_params w) (set_div dv r) = ret_new (bs "Possession") (in_t2 i) (set_div dv r) (bs "need-proof") (cs_secrets cs) 1 60 None).
    { unfold handle_possession. rewrite AN. unfold start_params at 1. cbv iota.
      assert (PL : poss_loop E (start_params w) None [] = Some (Some c, [])).
      { unfold start_params. cbn [poss_loop t_type t_val]. change (T_SelectedChallenge =? T_ParameterKey) with false. change (T_ParameterKey =? T_ParameterKey) with true. change (T_ParameterValue =? T_ParameterValue) with true.
        cbn [andb]. change (bytes_eqb (bs "issued-cert") K_CRED) with true. cbv iota. rewrite BV, DD. reflexivity. }
      rewrite PL. cbn [set_div rq_status]. rewrite STA. change (ST_BEFORE =? ST_BEFORE) with true. cbv iota. unfold has_content. destruct (c_content c) as [k|] eqn:K; [|contradiction].
      rewrite KL, PK. cbn [negb]. rewrite EX. reflexivity. }
    rewrite HP in FW. cbn [ret_new h_out h_email h_req email_effs] in FW. change (negb (NO_ERROR =? NO_ERROR)) with false in FW. cbv iota in FW.
    change (set_cs (Some (CState (bs "need-proof") (in_t2 i) 1 60 (cs_secrets cs))) (set_ctype (bs "Possession") (set_status ST_CHALLENGE (set_div dv r)))) with (moved dv (bs "possession") cs r) in FW.
    unfold after_challenge in FW. change (rq_status (moved dv (bs "possession") cs r) =? ST_PENDING) with false in FW. cbv iota in FW.
    assert (MV : moves E (cf_chal g) i (start_params w) (set_div dv r) (bs "possession") cs None).
    { left. split; [exact STA|]. apply start_possession; [|exact CC|exact TR]. exists w, b. split; [|split; assumption]. exists [Tlv T_SelectedChallenge (bs "possession")], []. reflexivity. }
    destruct (moved_plain E (cf_chal g) i _ r dv (bs "possession") cs None MV) as (nonce & NN & PL).
    assert (NQ : nonce = [Tlv T_ParameterKey (bs "nonce"); Tlv T_ParameterValue (rnd_nonce i)]).
    { destruct NN as [->|NN]; [|exact NN]. exfalso. revert PL. unfold chal_plain. cbn [moved set_cs rq_cs]. unfold cs. cbn [cs_status cs_secrets]. unfold told_tlvs.
      change (bytes_eqb (bs "need-proof") (bs "need-proof")) with true. cbv iota. cbn [sec_get]. change (bytes_eqb (bs "nonce") (bs "nonce")) with true. cbv iota. rewrite from_to_hex. intros Q. discriminate Q. }
    destruct (told_size i (moved dv (bs "possession") cs r) cs nonce (moves_status _ _ _ _ _ _ _ _ MV) NN) as [WF SZ].
    pose proof (initial_small E g S ops s id r i A P) as CI.
    destruct (chal_encode_fine E (moved dv (bs "possession") cs r) [] [] (rnd_iv i) _ (live_eiv r LV) (rnd_iv_len i) PL ltac:(lia)) as (payload & r3 & CE).
    { change (rq_eiv (moved dv (bs "possession") cs r)) with (rq_eiv r). lia. }
    rewrite CE in FW. unfold finish in FW. cbn [app] in FW.
    destruct (step_of s i x _ id r A FW N P) as (s' & nrm & m & ST & NO & CS & Z). rewrite (step_update nrm i x r _ m r3 CS (or_introl eq_refl)) in Z.
    assert (KT : known_type (bs "possession")) by (unfold known_type; auto).
    destruct (moved_live E g i x r _ _ dv cs None payload r3 LV OP KT MV CE) as (iv2 & R3 & _).
    pose proof CE as CE'. apply chal_encode_ok in CE' as (l' & iv3 & PL' & _ & _ & PQ); [|exact (live_eiv r LV)|apply rnd_iv_len]. rewrite PL in PL'. injection PL' as <-.
    assert (FL : fits (enc_tlvs (told_tlvs (moved dv (bs "possession") cs r) cs nonce))) by (unfold fits; lia).
    exists s'. eexists. exists (reply_data E g (i_name x) payload), (told_tlvs (moved dv (bs "possession") cs r) cs nonce), (nrm r3).
    assert (PRV : forall cs', cs_status cs' = cs_status cs -> cs_secrets cs' = cs_secrets cs -> proves E cs' c (rnd_nonce i)) by (intros cs' Q1 Q2; split; [exact Q1|exact Q2]).
    destruct (NO r3) as [Q|Q]; rewrite Q in *; subst r3; (eexists; split; [exact ST|]; split; [reflexivity|]; split; [reflexivity|]; split; [reflexivity|];
    split; [rewrite PQ; change (rq_key (moved dv (bs "possession") cs r)) with (rq_key r); change (rq_id (moved dv (bs "possession") cs r)) with (rq_id r); rewrite ID; apply sealed_opens; [exact LA|apply iv12_initial; [exact (live_eiv r LV)|apply rnd_iv_len]|exact WF|exact FL]|];
    split; [apply says_nni; reflexivity|]; split; [apply says_nni; reflexivity|]; split; [apply says_nni; reflexivity|];
    split; [subst nonce; eexists [_; _; _; _], []; reflexivity|]; split; [exact Z|]; split; [reflexivity|]; split; [reflexivity|]; split; [apply PRV; reflexivity|]; repeat split; reflexivity).
  Qed.

  Lemma possession_succeeds : forall s i x id r cs c nonce sig, aes_laws E -> codec_laws E -> ca_at E g ops s -> names_request g id x -> pending ops s id = Some r -> rq_cs r = Some cs -> rq_type r = RT_NEW ->
    signed_by E x (public_key (rq_cert r)) -> acceptable E r x (proof_params sig) -> proves E cs c nonce ->
    (exists params0, credential_in E params0 c) -> cert_ok c = true -> o_pubkey_ok E (public_key c) = true -> (exists anchors, cc_anchors (cf_chal g) = Ok anchors) ->
    sig <> [] -> o_verify E (public_key c) (MRaw nonce) sig = true ->
    blen (name_wire (c_name (rq_cert r))) < 2 ^ 31 -> blen (name_wire (p_fwd (cfp g))) < 2 ^ 32 ->
    exists s' es k d l t, step E g ops s (EvInterest i x) = Some (s', es) /\ In (EIssue k) es /\ certifies E g (rq_cert r) k /\ pending ops s' id = None /\
      puts es = [d] /\ d_name d = i_name x /\ data_signed_by E d (cf_sk g) /\ reply_opens E (rq_key r) id d l /\ says l T_Status ST_SUCCESS /\
      get T_IssuedCertName l = Some t /\ t_val t = name_wire (c_name k).
  Proof.
    intros s i x id r cs c nonce sig LA LC A N P C RT SB AC (SS & SEC) (params0 & CI) OK PK (anchors & AN) NE V B1 B2. destruct (credential_storable E params0 c LC CI) as (_ & F & U). destruct (pending_live E g S ops s id r A P) as [ID LV]. pose proof (live_cs_none r cs LV C) as STA.
    destruct (acceptable_opened E r x _ (bs "possession") LV AC) as (dv & OP). { eexists. split; reflexivity. }
    apply (passed_issues s i x id r _ (bs "possession") (bs "Possession") dv LA A N P RT SB OP); [|exact B1|exact B2].
    rewrite hc_possession. f_equal. unfold handle_possession. rewrite AN. unfold proof_params at 1. cbv iota.
    assert (PL : poss_loop E (proof_params sig) None [] = Some (None, sig)).
    { unfold proof_params. cbn [poss_loop t_type t_val]. change (T_SelectedChallenge =? T_ParameterKey) with false. change (T_ParameterKey =? T_ParameterKey) with true. change (T_ParameterValue =? T_ParameterValue) with true. cbn [andb].
      change (bytes_eqb (bs "proof") K_CRED) with false. change (bytes_eqb (bs "proof") K_PROOF) with true. cbv iota. reflexivity. }
    rewrite PL. cbn [set_div rq_status rq_cs]. rewrite STA, C. change (ST_CHALLENGE =? ST_BEFORE) with false. cbv iota. change NEED_PROOF with (bs "need-proof"). rewrite SS.
    change (bytes_eqb (bs "need-proof") (bs "need-proof")) with true. cbn [has_content]. destruct sig as [|z zs] eqn:SQ; [contradiction|]. rewrite <- SQ in *. cbv iota zeta.
    rewrite SEC. change K_CRED with (bs "issued-cert"). change K_NONCE with (bs "nonce"). destruct (secrets_get E nonce c) as [G1 G2]. unfold possession_secrets in G1, G2. rewrite G1, G2, !from_to_hex, (stored_credential E c F).
    unfold cert_decode, data_decode. change (t_type (cert_tlv E c) =? T_Data) with true. cbv iota. change (t_val (cert_tlv E c)) with (o_cert_wire E c). rewrite U, OK, PK. cbn [negb]. rewrite V. reflexivity.
  Qed.
End Possession.
