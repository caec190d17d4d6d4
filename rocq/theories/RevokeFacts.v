(** Revocation: requester and CA together. *)
From Verif Require Import RequesterFacts OutcomeFacts.
From Verif Require Export SessionFacts Spec_Revoke.
From Coq Require Import Lia.
Local Open Scope N_scope.

(** ** Without genNewInterest there is no key to sign with *)
Lemma keypair_kept : forall E p rt ecdh s, without_new E p rt ecdh s -> rs_keypair s = None.
Proof.
  intros E p rt ecdh s H. induction H as [id0|s ri d o s' H IH Q|s t o s' H IH Q|s ri m o s' H IH Q|s ri d o s' H IH Q]; [reflexivity|..].
  - unfold on_new_response in Q. destruct (check_reply _ _ _); [|injection Q as _ <-; exact IH..]. destruct (reply_decode _ _ _) as [[u| | |] r]; [|injection Q as _ <-; exact IH..].
    destruct (bind _ _); injection Q as _ <-; exact IH.
  - unfold select_challenge in Q. destruct (requested_params _ _ _); injection Q as _ <-; exact IH.
  - unfold gen_challenge in Q. destruct (rs_ctype s); [injection Q as _ <-; exact IH|]. destruct (gen_challenge_tlv _ _ _ _) as [[els| | |]|]; [|injection Q as _ <-; exact IH..].
    destruct (encode_aes _ _ _ _ _ _) as [[w| | |] iv]; [|injection Q as _ <-; exact IH..]. rewrite IH in Q. injection Q as _ <-. exact IH.
  - apply challenge_kept in Q as (_ & _ & _ & _ & _ & _ & _ & _ & Q). congruence.
Qed.
Lemma no_key_no_challenge : forall E p rt ecdh s ri m x s', without_new E p rt ecdh s -> gen_challenge E s ri m <> (Ok x, s').
Proof.
  intros E p rt ecdh s ri m x s' H Q. pose proof (keypair_kept E p rt ecdh s H) as KP. unfold gen_challenge in Q. destruct (rs_ctype s); [discriminate|].
  destruct (gen_challenge_tlv _ _ _ _) as [[els| | |]|]; try discriminate. destruct (encode_aes _ _ _ _ _ _) as [[w| | |] iv]; try discriminate. rewrite KP in Q. discriminate.
Qed.

(** ** The session *)
Lemma revoke_linked : forall E g S (ops : store_ops S) ctype ca0 s0 rj i c sk, env_laws E -> config_fits g -> ca_at E g ops ca0 -> revocable E g i c -> prepared E g s0 c sk ->
  let id := request_id_of E (ca_idkey ca0) (c_name c) in pending ops ca0 id = None -> length (ri_salt0 rj) = 32%nat ->
  exists ca es s, revoking E g ops ca0 s0 rj i c = Some (ca, es, s, p_challenges (cfp g)) /\ linked E g ops RT_REVOKE ctype id sk c None ca s.
Proof.
  intros E g S ops ctype ca0 s0 rj i c sk L (SANE & FC & _) A [NP SG WI (W1 & W2 & W3 & W4)] ((p & ecdh & id0 & ri & kn & nb & na & x0 & L0 & GN) & PF & (cc & PC & PK) & PKC) id P L2.
  destruct L as [LA LE LH LS LC].
  assert (FR : exists ident, s0 = upd_keypair (Some (kn, sk)) (upd_identity ident (request_init p RT_REVOKE ecdh id0))).
  { unfold gen_new in GN. destruct (negb _); [discriminate|]. destruct kn as [|k0 kn]; [discriminate|]. destruct (get_neg 2 (k0 :: kn)); [|discriminate]. destruct (comp_eqb _ _); [|discriminate].
    injection GN as _ <-. eexists. reflexivity. }
  destruct FR as (ident & FR). clear GN.
  assert (FE : fits (o_ecdh_pub E (rs_ecdh s0))) by (pose proof (l_ecdh_pub_len E LE (rs_ecdh s0)); unfold fits; lia).
  assert (PX : is_prefix (p_prefix (rs_profile s0)) (c_name c) = true).
  { rewrite PF. destruct NP as (suffix & kid & i0 & v0 & Q & _). apply is_prefix_iff. rewrite Q. eexists. reflexivity. }
  set (x := unsigned_interest E (p_prefix (rs_profile s0) ++ [r_CA; gc (bs "REVOKE")]) (req_encode E RT_REVOKE (o_ecdh_pub E (rs_ecdh s0)) c)).
  assert (GR : gen_revoke E s0 c = Some x) by (unfold gen_revoke; rewrite PX; reflexivity).
  assert (AD : addressed g VRevoke (i_name x)) by (unfold x, unsigned_interest; cbn [i_name]; rewrite PF; eexists; rewrite <- app_assoc; reflexivity).
  assert (ADM : admissible E g i RT_REVOKE id x (o_ecdh_pub E (rs_ecdh s0)) c).
  { constructor; [exact WI|apply carries_encoded; auto|apply (l_ecdh_pub_nonempty E LE)|rewrite (l_ecdh_ok E LE); discriminate|exact NP|right; auto|unfold key_derivable; rewrite (l_hkdf_ok E LH); discriminate]. }
  destruct (new_accepted E g S ops ca0 i RT_REVOKE x _ c A SANE (or_intror eq_refl) AD ADM P) as (ca' & ST & P' & _). fold id in ST, P'.
  pose proof (new_answered E g i x id s0 rj cc LE LH LS FC PC PK ltac:(rewrite FR; exact L0) L2 (request_id_len _ _ _ LH)) as NR.
  eexists. eexists. eexists. split; [unfold revoking; rewrite GR, ST; cbn [puts flat_map app]; rewrite NR; reflexivity|]. constructor.
  - exact (ca_at_step _ _ _ _ _ _ _ _ A ST).
  - apply request_id_len, LH.
  - exact PKC.
  - exact W4.
  - reflexivity.
  - exists kn. rewrite FR. reflexivity.
  - exact PF.
  - exists cc. auto.
  - exists (created E g i RT_REVOKE id (o_ecdh_pub E (rs_ecdh s0)) c). split; [exact P'|]. subst s0. repeat split.
Qed.
Lemma revocation_linked : forall E g S (ops : store_ops S) ctype life id sk c ph ca s, env_laws E -> config_fits g -> (ph <> None -> code_life ctype life) ->
  revocation E g ops ctype life id sk c ph ca s -> linked E g ops RT_REVOKE ctype id sk c ph ca s /\ phase_code ph.
Proof.
  intros E g S ops ctype life id sk c ph ca s L CF CL SE. induction SE as
    [ca0 s0 rj i ca es s chals A RV PR -> P L2 OP|ph ca s ca' SE IH Q|ca s ri rj i params code ca' es s' SE IH B G SK T0 RN CK RD|code k t ca s ri rj i given ca' es s' SE IH NE B TB CK RD].
  - destruct (revoke_linked E g S ops ctype ca0 s0 rj i c sk L CF A RV PR P L2) as (ca1 & es1 & s1 & OP1 & LK). rewrite OP1 in OP. injection OP as <- <- <- <-. split; [exact LK|exact I].
  - destruct (IH CL) as [LK PC]. split; [eapply quiet_linked; eassumption|exact PC].
  - destruct (IH ltac:(congruence)) as [LK _]. destruct L as [LA LE LH LS LC].
    destruct (start_round E g S ops RT_REVOKE ctype life id sk c ca s ri rj i params code LA LS (CL ltac:(discriminate)) LK B G SK T0 RN CK) as (ca1 & s1 & d & r3 & r & RD1 & _ & _ & LK1 & _).
    rewrite RD1 in RD. injection RD as <- _ <-. split; [exact LK1|exact (code_small _ _ G)].
  - specialize (CL ltac:(discriminate)). destruct (IH (fun _ => CL)) as [LK PC]. destruct L as [LA LE LH LS LC].
    assert (KK : (k <= 2)%nat). { destruct (lk_req _ _ _ _ _ _ _ LK) as (r & _ & _ & _ & _ & _ & _ & _ & _ & _ & Q & _). exact Q. }
    assert (k = 2%nat \/ (k < 2)%nat) as [-> |K2] by lia.
    + rewrite (third_round E g S ops RT_REVOKE ctype life id sk c code t ca s ri rj i given LA LS CL LK NE B ltac:(tauto)) in RD. discriminate.
    + destruct (wrong_round E g S ops RT_REVOKE ctype life id sk c code k t ca s ri rj i given LA LS CL LK NE B TB CK K2) as (ca1 & s1 & d & r3 & RD1 & LK1 & _). rewrite RD1 in RD. injection RD as <- _ <-. auto.
Qed.
Lemma revoke_open : forall E g S (ops : store_ops S) ctype life ca0 s0 rj i c sk, env_laws E -> config_fits g -> ca_at E g ops ca0 -> revocable E g i c -> prepared E g s0 c sk ->
  let id := request_id_of E (ca_idkey ca0) (c_name c) in pending ops ca0 id = None -> length (ri_salt0 rj) = 32%nat ->
  exists ca es s, revoking E g ops ca0 s0 rj i c = Some (ca, es, s, p_challenges (cfp g)) /\ revocation E g ops ctype life id sk c None ca s.
Proof.
  intros E g S ops ctype life ca0 s0 rj i c sk L CF A RV PR id P L2. destruct (revoke_linked E g S ops ctype ca0 s0 rj i c sk L CF A RV PR P L2) as (ca & es & s & OP & _).
  exists ca, es, s. split; [exact OP|]. eapply re_open; eauto.
Qed.
Lemma revoke_start : forall E g S (ops : store_ops S) ctype life id sk c ca s ri rj i params code, env_laws E -> config_fits g -> code_life ctype life ->
  revocation E g ops ctype life id sk c None ca s -> begins_with ctype params -> gen_code (in_words i) = Ok code -> in_script_ok i = true -> (0 <= in_t2 i)%Z ->
  be_enc 8 (ri_iv ri) <> rnd_iv i -> clock_ok rj ->
  exists ca' es s', round E g ops ca s ri rj i ctype params = Some (ca', es, s') /\ revocation E g ops ctype life id sk c (Some (code, 0%nat, in_t2 i)) ca' s' /\
    rs_status s' = ST_CHALLENGE /\ rs_cstatus s' = bs "need-code" /\ rs_tries s' = 3%Z /\ rs_fresh s' = (ri_now rj + sec life)%Z.
Proof.
  intros E g S ops ctype life id sk c ca s ri rj i params code L CF CL SE B G SK T0 RN CK. pose proof L as [LA LE LH LS LC].
  destruct (revocation_linked E g S ops ctype life id sk c None ca s L CF (fun _ => CL) SE) as [LK _].
  destruct (start_round E g S ops RT_REVOKE ctype life id sk c ca s ri rj i params code LA LS CL LK B G SK T0 RN CK) as (ca1 & s1 & d & r3 & r & RD & _ & _ & _ & Q1 & Q2 & Q3 & Q4 & _).
  exists ca1. eexists. exists s1. split; [exact RD|]. split; [eapply re_start; eassumption|auto].
Qed.
Lemma revoke_wrong : forall E g S (ops : store_ops S) ctype life id sk c code k t ca s ri rj i given, env_laws E -> config_fits g -> code_life ctype life ->
  revocation E g ops ctype life id sk c (Some (code, k, t)) ca s -> given <> code -> blen given < 2 ^ 30 -> (t <= in_t1 i < t + sec life - 1000 /\ 0 <= in_t2 i)%Z -> clock_ok rj -> (k < 2)%nat ->
  exists ca' es s', round E g ops ca s ri rj i ctype [(bs "code", given)] = Some (ca', es, s') /\
    revocation E g ops ctype life id sk c (Some (code, Datatypes.S k, in_t2 i)) ca' s' /\ rs_status s' = ST_CHALLENGE /\ rs_cstatus s' = bs "wrong-code" /\ rs_tries s' = (2 - Z.of_nat k)%Z.
Proof.
  intros E g S ops ctype life id sk c code k t ca s ri rj i given L CF CL SE NE B TB CK K2. pose proof L as [LA LE LH LS LC].
  destruct (revocation_linked E g S ops ctype life id sk c _ ca s L CF (fun _ => CL) SE) as [LK _].
  destruct (wrong_round E g S ops RT_REVOKE ctype life id sk c code k t ca s ri rj i given LA LS CL LK NE B TB CK K2) as (ca1 & s1 & d & r3 & RD & _ & Q1 & Q2 & Q3 & _).
  exists ca1. eexists. exists s1. split; [exact RD|]. split; [eapply re_wrong; eassumption|auto].
Qed.
(** The right code. *)
Lemma revoke_right : forall E g S (ops : store_ops S) ctype life id sk c code k t ca s ri rj i, env_laws E -> config_fits g -> code_life ctype life ->
  revocation E g ops ctype life id sk c (Some (code, k, t)) ca s -> (t <= in_t1 i < t + sec life - 1000)%Z -> clock_ok rj ->
  exists ca' s' d r, round E g ops ca s ri rj i ctype [(bs "code", code)] = Some (ca', [EDelete id; EPut d; ECallback r], s') /\
    rq_cert r = c /\ rq_type r = RT_REVOKE /\ rq_status r = ST_SUCCESS /\ rs_status s' = ST_SUCCESS /\ rs_issued s' = rs_issued s /\ pending ops ca' id = None.
Proof.
  intros E g S ops ctype life id sk c code k t ca s ri rj i L CF CL SE TB CK. pose proof L as [LA LE LH LS LC].
  destruct (revocation_linked E g S ops ctype life id sk c _ ca s L CF (fun _ => CL) SE) as [LK B]. cbn [phase_code] in B.
  destruct (guess_sent E g S ops RT_REVOKE ctype life id sk c code k t ca s ri i code LA LS CL LK B TB) as (r & cs & m & x & iv2 & msg & P & CR & RT & K & DV & IE & TR & SEL & GC & N & SB & OP & I2 & RN & FM & HC).
  pose proof (lk_at _ _ _ _ _ _ _ LK) as A. destruct (lk_cert _ _ _ _ _ _ _ LK) as (cc & PC & PK).
  destruct (pending_live E g S ops ca id r A P) as [ID LV].
  pose proof (chal_forward E g S ops ca i x id r _ ctype iv2 A N P SB OP) as FW. rewrite HC in FW. rewrite bytes_eqb_refl in FW.
  cbn [ret_success h_out h_email h_req email_effs] in FW. change (negb (NO_ERROR =? NO_ERROR)) with false in FW. cbv iota in FW.
  set (r1 := set_cs None (set_ctype ctype (set_status ST_PENDING (set_div iv2 r)))) in *.
  unfold after_challenge in FW. change (rq_status r1 =? ST_PENDING) with true in FW. change (rq_type r1) with (rq_type r) in FW. rewrite RT in FW.
  change ((RT_REVOKE =? RT_NEW) || (RT_REVOKE =? RT_RENEW)) with false in FW. change (RT_REVOKE =? RT_REVOKE) with true in FW. cbv iota in FW.
  set (r2 := set_status ST_SUCCESS r1) in *. change (rq_id r1) with (rq_id r) in FW.
  assert (PL : chal_plain r2 [] [] = Ok [Tlv T_Status (nni_enc ST_SUCCESS)]) by reflexivity.
  pose proof (initial_small E g S ops ca id r i A P) as CI.
  destruct (chal_encode_fine E r2 [] [] (rnd_iv i) _ (live_eiv r LV) (rnd_iv_len i) PL) as (payload & r3 & EN); [vm_compute; reflexivity|change (rq_eiv r2) with (rq_eiv r); lia|].
  rewrite EN in FW. unfold finish in FW. cbn [app] in FW. pose proof (ok_step E g S ops ca i x _ FW) as ST.
  assert (NF : name_fits []) by (split; [constructor|unfold fits; vm_compute; reflexivity]).
  destruct (reply_read E g (i_name x) r2 [] [] i rj [] payload r3 (upd_eiv iv2 (upd_ctype ctype s)) cc LA LS (live_eiv r LV) (fun c0 Q => ltac:(discriminate))
    ltac:(vm_compute; discriminate) NF NF ltac:(vm_compute; reflexivity) ltac:(vm_compute; reflexivity) EN PC PK (eq_sym K)) as (s3 & RR & TO & _ & _).
  { pose proof (lk_id _ _ _ _ _ _ _ LK) as Q. cbn. congruence. }
  { exact DV. }
  { exact I2. }
  { change (rq_eiv r2) with (rq_eiv r). rewrite (initial_ne _ _ IE). exact RN. }
  pose proof (deleted_gone E g S ops _ _ _ _ id A ST (or_introl (f_equal EDelete ID))) as GONE.
  assert (R3 : rq_cert r3 = c /\ rq_type r3 = RT_REVOKE /\ rq_status r3 = ST_SUCCESS).
  { unfold chal_encode in EN. rewrite PL in EN. cbn [bind] in EN. destruct (encode_aes _ _ _ _ _ _) as [o iv]. injection EN as _ <-. cbn. auto. }
  eexists. exists s3, (reply_data E g (i_name x) payload), r3. split.
  { unfold round. rewrite SEL, GC, ST. cbn [puts flat_map app]. rewrite RR, <- ID. reflexivity. }
  destruct R3 as (Q1 & Q2 & Q3). split; [exact Q1|]. split; [exact Q2|]. split; [exact Q3|].
  destruct TO as (T1 & _ & T2 & _). split; [exact T1|]. split; [exact (proj1 (T2 eq_refl))|exact GONE].
Qed.
(** The server goes on serving what it served. *)
Lemma revoke_cached : forall S (tr : list (hstep S)) ca ca' i x id d r, rq_type r = RT_REVOKE ->
  server_cache (seen (tr ++ [HStep ca (EvInterest i x) [EDelete id; EPut d; ECallback r] ca'])) = server_cache (seen tr).
Proof.
  intros S tr ca ca' i x id d r RT. unfold seen. rewrite map_app. unfold server_cache. rewrite fold_left_app. cbn. unfold cache_callback. rewrite RT.
  change (RT_REVOKE =? RT_NEW) with false. rewrite Bool.andb_false_r. reflexivity.
Qed.
Lemma revoke_ends : forall E g S (ops : store_ops S) ctype life id sk c code k t tr ca s ri rj i, env_laws E -> config_fits g -> code_life ctype life ->
  ca_history E g ops tr ca -> revocation E g ops ctype life id sk c (Some (code, k, t)) ca s -> (t <= in_t1 i < t + sec life - 1000)%Z -> clock_ok rj ->
  exists ca' es s' x, round E g ops ca s ri rj i ctype [(bs "code", code)] = Some (ca', es, s') /\ ca_history E g ops (tr ++ [HStep ca (EvInterest i x) es ca']) ca' /\
    rs_status s' = ST_SUCCESS /\ rs_issued s' = rs_issued s /\ pending ops ca' id = None /\ (forall c', ~ In (EIssue c') es) /\
    server_cache (seen (tr ++ [HStep ca (EvInterest i x) es ca'])) = server_cache (seen tr).
Proof.
  intros E g S ops ctype life id sk c code k t tr ca s ri rj i L CF CL H SE TB CK.
  destruct (revoke_right E g S ops ctype life id sk c code k t ca s ri rj i L CF CL SE TB CK) as (ca' & s' & d & r & RD & _ & RT & _ & Q1 & Q2 & Q3).
  pose proof RD as RD'. unfold round in RD'. destruct (select_challenge s ctype) as [[m| | |] s1]; try discriminate. destruct (gen_challenge E s1 ri _) as [[x| | |] s2]; try discriminate.
  destruct (step E g ops ca (EvInterest i x)) as [[ca1 es1]|] eqn:ST; [|discriminate]. assert (ca1 = ca' /\ es1 = [EDelete id; EPut d; ECallback r]) as [-> ->].
  { destruct (puts es1) as [|d1 [|]]; try discriminate. destruct (on_challenge_response E s2 rj d1) as [[u| | |] s3]; try discriminate. injection RD' as <- <- _. auto. }
  exists ca'. eexists. exists s', x. split; [exact RD|]. split; [exact (history_push S E g ops tr (HStep ca (EvInterest i x) _ ca') H ST)|]. split; [exact Q1|]. split; [exact Q2|]. split; [exact Q3|].
  split; [intros c' [Q|[Q|[Q|[]]]]; discriminate|]. apply revoke_cached, RT.
Qed.

(** ** What the CA issues can be revoked *)
Lemma issued_revocable : forall E g S (ops : store_ops S) tr st s c i, env_laws E -> public_key (cf_cert g) = o_pub E (cf_sk g) -> wf_name (cf_keyloc g) -> ca_history E g ops (tr ++ [st]) s ->
  In (EIssue c) (h_effs st) -> within (in_t1 i) (c_validity (cf_cert g)) -> fits (enc_tlv (cert_tlv E c)) -> blen (name_wire (c_name c)) < 2 ^ 31 -> revocable E g i c.
Proof.
  intros E g S ops tr st s c i L PK WK H I W F B. destruct L as [LA LE LH LS LC].
  destruct (issued_says E g S ops tr st s c H I) as (id & key & c0 & a1 & new & a2 & i0 & x & nb & na & _ & (i1 & x1 & peer & _ & _ & [_ (cty & _ & els & t & _ & _ & _ & _ & _ & _ & (inner & d & _ & _ & CD) & _) _ _ _ _ _] & _) & _ & _ & CE & NP & V & _).
  destruct CE as (kn & is0 & v0 & v1 & Q0 & Q1 & Q2 & Q3 & Q4 & Q5 & Q6). unfold cert_decode in CD. destruct (data_decode E d) as [c1|] eqn:DD; [|discriminate]. destruct (cert_ok c1) eqn:OK; [|discriminate]. injection CD as ->.
  assert (W0 : wf_cert c0). { unfold data_decode in DD. destruct (t_type d =? T_Data); [|discriminate]. exact (l_cert_wf E LC _ _ DD). }
  constructor.
  - exact NP.
  - unfold cert_signed_by. rewrite PK, Q6. apply (l_sign_verify E LS).
  - exact W.
  - destruct W0 as (N0 & _ & V0). unfold cert_ok in OK |- *. apply andb_true_iff in OK as [OK C0]. apply andb_true_iff in OK as [OK _]. split; [|split].
    + split; [|split].
      * rewrite Q0 in N0. apply Forall_app in N0 as [N0 _]. rewrite Q1. apply wf_name_app; [exact N0|]. constructor; [wft; reflexivity|]. constructor; [wft; apply fits_nni|constructor].
      * intros n QN. rewrite Q5 in QN. injection QN as <-. exact WK.
      * intros b a QV. rewrite Q3 in QV. exact (V0 b a QV).
    + rewrite Q2, C0, Q4. destruct NP as (suffix & kid & i2 & v2 & QN & _). rewrite QN, app_assoc, valid_cert_name_of_shape. reflexivity.
    + auto.
Qed.
