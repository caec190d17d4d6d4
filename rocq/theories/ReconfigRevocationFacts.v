(** Proofs about a revocation during which the CA changes its configuration. *)
From Coq Require Import Lia.
From Verif Require Import RequesterFacts OutcomeFacts EmailFacts SessionFacts RevokeFacts ReconfigRevokeFacts.
From Verif Require Export Spec_ReconfigRevocation ReconfigSessionFacts.
Local Open Scope N_scope.

Lemma revoke_linked_c : forall E S (ops : store_ops S) ctype tr g ca0 s0 rj i c sk, env_laws E -> config_fits g -> reconfigured E ops tr g ca0 -> revocable E g i c -> prepared E g s0 c sk ->
  let id := id_for E (ca_idkey ca0) (c_name c) in pending ops ca0 id = None -> length (ri_salt0 rj) = 32%nat ->
  exists ca es s, revoking E g ops ca0 s0 rj i c = Some (ca, es, s, p_challenges (cfp g)) /\ linked_c E g ops RT_REVOKE ctype id sk c None ca s.
Proof.
  intros E S ops ctype tr g ca0 s0 rj i c sk L (SANE & FC & _) H [NP SG WI (W1 & W2 & W3 & W4)] ((p & ecdh & id0 & ri & kn & nb & na & x0 & L0 & GN) & PF & (cc & PC & PK) & PKC) id P L2.
  destruct L as [LA LE LH LS LC]. pose proof (ex_intro _ tr H : r_at E g ops ca0) as A.
  assert (FR : exists ident, s0 = upd_keypair (Some (kn, sk)) (upd_identity ident (request_init p RT_REVOKE ecdh id0))).
  { unfold gen_new in GN. destruct (negb _); [discriminate|]. destruct kn as [|k0 kn]; [discriminate|]. destruct (get_neg 2 (k0 :: kn)); [|discriminate]. destruct (comp_eqb _ _); [|discriminate].
    injection GN as _ <-. eexists. reflexivity. }
  destruct FR as (ident & FR). clear GN.
  assert (FE : fits (o_ecdh_pub E (rs_ecdh s0))) by (pose proof (l_ecdh_pub_len E LE (rs_ecdh s0)); unfold fits; lia).
  assert (PX : is_prefix (p_prefix (rs_profile s0)) (c_name c) = true).
  { rewrite PF. destruct NP as (suffix & kid & i0 & v0 & Q & _). apply is_prefix_iff. rewrite Q. eexists. reflexivity. }
  set (x := unsigned_interest E (p_prefix (rs_profile s0) ++ [r_CA; gc (bs "REVOKE")]) (req_encode E RT_REVOKE (o_ecdh_pub E (rs_ecdh s0)) c)).
  assert (GR : gen_revoke E s0 c = Some x) by (unfold gen_revoke; rewrite PX; reflexivity).
  assert (AD : addressed g VRevoke (i_name x)) by (unfold x, unsigned_interest; cbn [i_name]; rewrite PF; eexists; rewrite <- app_assoc; reflexivity).
  assert (ADM : admissible E g i RT_REVOKE id x (o_ecdh_pub E (rs_ecdh s0)) c).
  { constructor; [exact WI|apply carries_encoded; auto|apply (l_ecdh_pub_nonempty E LE)|rewrite (l_ecdh_ok E LE); discriminate|exact NP|right; auto|unfold key_derivable; rewrite (l_hkdf_ok E LH); discriminate]. }
  destruct (new_accepted_c E g S ops ca0 i RT_REVOKE x _ c A SANE (or_intror eq_refl) AD ADM P) as (ca' & ST & P' & _). change (request_id_of E (ca_idkey ca0) (c_name c)) with id in ST, P'.
  pose proof (new_answered E g i x id s0 rj cc LE LH LS FC PC PK ltac:(rewrite FR; exact L0) L2 (request_id_len _ _ _ LH)) as NR.
  eexists. eexists. eexists. split; [unfold revoking; rewrite GR, ST; cbn [puts flat_map app]; rewrite NR; reflexivity|]. constructor.
  - exact (r_at_step _ _ _ _ _ _ _ _ A ST).
  - apply request_id_len, LH.
  - exact PKC.
  - exact W4.
  - reflexivity.
  - exists kn. rewrite FR. reflexivity.
  - exact PF.
  - exists cc. auto.
  - exists (created E g i RT_REVOKE id (o_ecdh_pub E (rs_ecdh s0)) c). split; [exact P'|]. subst s0. repeat split.
Qed.

Lemma revocation_linked_c : forall E S (ops : store_ops S) ctype life id sk c ph g ca s, env_laws E -> (ph <> None -> code_life ctype life) ->
  revocation_change E ops ctype life id sk c ph g ca s -> linked_c E g ops RT_REVOKE ctype id sk c ph ca s /\ phase_code ph.
Proof.
  intros E S ops ctype life id sk c ph g ca s L CL SE. induction SE as
    [tr g ca0 s0 rj i ca es s chals A CF RV PR -> P L2 OP|ph g ca s g' ca' SE IH Q SK|g ca s ri rj i params code ca' es s' SE IH B G SK T0 RN CK RD|code k t g ca s ri rj i given ca' es s' SE IH NE B TB CK RD].
  - destruct (revoke_linked_c E S ops ctype tr g ca0 s0 rj i c sk L CF A RV PR P L2) as (ca1 & es1 & s1 & OP1 & LK). rewrite OP1 in OP. injection OP as <- <- <- <-. split; [exact LK|exact I].
  - destruct (IH CL) as [LK PC]. split; [eapply quiet_linked_c; eassumption|exact PC].
  - destruct (IH ltac:(congruence)) as [LK _]. destruct L as [LA LE LH LS LC].
    destruct (start_round_c E g S ops RT_REVOKE ctype life id sk c ca s ri rj i params code LA LS (CL ltac:(discriminate)) LK B G SK T0 RN CK) as (ca1 & s1 & d & r3 & r & RD1 & _ & _ & LK1 & _).
    rewrite RD1 in RD. injection RD as <- _ <-. split; [exact LK1|exact (code_small _ _ G)].
  - specialize (CL ltac:(discriminate)). destruct (IH (fun _ => CL)) as [LK PC]. destruct L as [LA LE LH LS LC].
    assert (KK : (k <= 2)%nat). { destruct (lc_req _ _ _ _ _ _ _ LK) as (r & _ & _ & _ & _ & _ & _ & _ & _ & _ & Q & _). exact Q. }
    assert (k = 2%nat \/ (k < 2)%nat) as [-> |K2] by lia.
    + rewrite (third_round_c E g S ops RT_REVOKE ctype life id sk c code t ca s ri rj i given LA LS CL LK NE B ltac:(tauto)) in RD. discriminate.
    + destruct (wrong_round_c E g S ops RT_REVOKE ctype life id sk c code k t ca s ri rj i given LA LS CL LK NE B TB CK K2) as (ca1 & s1 & d & r3 & RD1 & LK1 & _). rewrite RD1 in RD. injection RD as <- _ <-. auto.
Qed.
Lemma revoke_open_change : forall E S (ops : store_ops S) ctype life tr g ca0 s0 rj i c sk, env_laws E -> config_fits g -> reconfigured E ops tr g ca0 -> revocable E g i c -> prepared E g s0 c sk ->
  let id := id_for E (ca_idkey ca0) (c_name c) in pending ops ca0 id = None -> length (ri_salt0 rj) = 32%nat ->
  exists ca es s, revoking E g ops ca0 s0 rj i c = Some (ca, es, s, p_challenges (cfp g)) /\ revocation_change E ops ctype life id sk c None g ca s.
Proof.
  intros E S ops ctype life tr g ca0 s0 rj i c sk L CF A RV PR id P L2. destruct (revoke_linked_c E S ops ctype tr g ca0 s0 rj i c sk L CF A RV PR P L2) as (ca & es & s & OP & _).
  exists ca, es, s. split; [exact OP|]. eapply rvc_open; eauto.
Qed.
Lemma revoke_start_change : forall E S (ops : store_ops S) ctype life id sk c g ca s ri rj i params code, env_laws E -> code_life ctype life ->
  revocation_change E ops ctype life id sk c None g ca s -> begins_with ctype params -> gen_code (in_words i) = Ok code -> in_script_ok i = true -> (0 <= in_t2 i)%Z ->
  be_enc 8 (ri_iv ri) <> rnd_iv i -> clock_ok rj ->
  exists ca' s' d r es, round E g ops ca s ri rj i ctype params = Some (ca', es ++ [EUpdate r; EPut d; ECallback r], s') /\
    (exists cs, rq_cs r = Some cs /\ sec_get (bs "code") (cs_secrets cs) = Some code) /\
    revocation_change E ops ctype life id sk c (Some (code, 0%nat, in_t2 i)) g ca' s' /\
    rs_status s' = ST_CHALLENGE /\ rs_cstatus s' = bs "need-code" /\ rs_tries s' = 3%Z /\ rs_fresh s' = (ri_now rj + sec life)%Z.
Proof.
  intros E S ops ctype life id sk c g ca s ri rj i params code L CL SE B G SK T0 RN CK. pose proof L as [LA LE LH LS LC].
  destruct (revocation_linked_c E S ops ctype life id sk c None g ca s L (fun _ => CL) SE) as [LK _].
  destruct (start_round_c E g S ops RT_REVOKE ctype life id sk c ca s ri rj i params code LA LS CL LK B G SK T0 RN CK) as (ca1 & s1 & d & r3 & r & RD & Q1 & Q2 & _ & Q3 & Q4 & Q5 & Q6 & Q7).
  exists ca1, s1, d, r3, (email_effs (mail_of E g ctype params code r)). split; [exact RD|]. split; [assumption|]. split; [eapply rvc_start; eassumption|auto].
Qed.
Lemma revoke_wrong_change : forall E S (ops : store_ops S) ctype life id sk c code k t g ca s ri rj i given, env_laws E -> code_life ctype life ->
  revocation_change E ops ctype life id sk c (Some (code, k, t)) g ca s -> given <> code -> blen given < 2 ^ 30 -> (t <= in_t1 i < t + sec life - 1000 /\ 0 <= in_t2 i)%Z -> clock_ok rj -> (k < 2)%nat ->
  exists ca' s' d r, round E g ops ca s ri rj i ctype [(bs "code", given)] = Some (ca', [EUpdate r; EPut d; ECallback r], s') /\
    revocation_change E ops ctype life id sk c (Some (code, Datatypes.S k, in_t2 i)) g ca' s' /\
    rs_status s' = ST_CHALLENGE /\ rs_cstatus s' = bs "wrong-code" /\ rs_tries s' = (2 - Z.of_nat k)%Z /\
    (ri_now rj <= rs_fresh s' <= ri_now rj + sec life)%Z.
Proof.
  intros E S ops ctype life id sk c code k t g ca s ri rj i given L CL SE NE B TB CK K2. pose proof L as [LA LE LH LS LC].
  destruct (revocation_linked_c E S ops ctype life id sk c _ g ca s L (fun _ => CL) SE) as [LK _].
  destruct (wrong_round_c E g S ops RT_REVOKE ctype life id sk c code k t ca s ri rj i given LA LS CL LK NE B TB CK K2) as (ca1 & s1 & d & r3 & RD & _ & Q).
  exists ca1, s1, d, r3. split; [exact RD|]. split; [eapply rvc_wrong; eassumption|exact Q].
Qed.
Lemma revoke_tries_change : forall E S (ops : store_ops S) ctype life id sk c code k t g ca s, env_laws E -> code_life ctype life ->
  revocation_change E ops ctype life id sk c (Some (code, k, t)) g ca s -> (k <= 2)%nat.
Proof.
  intros E S ops ctype life id sk c code k t g ca s L CL SE. destruct (revocation_linked_c E S ops ctype life id sk c _ g ca s L (fun _ => CL) SE) as [LK _].
  destruct (lc_req _ _ _ _ _ _ _ LK) as (r & _ & _ & _ & _ & _ & _ & _ & _ & _ & Q & _). exact Q.
Qed.
Lemma revoke_right_c : forall E g S (ops : store_ops S) ctype life id sk c code k t ca s ri rj i, aes_laws E -> sig_laws E -> code_life ctype life ->
  linked_c E g ops RT_REVOKE ctype id sk c (Some (code, k, t)) ca s -> blen code < 2 ^ 30 -> (t <= in_t1 i < t + sec life - 1000)%Z -> clock_ok rj ->
  exists ca' s' d r, round E g ops ca s ri rj i ctype [(bs "code", code)] = Some (ca', [EDelete id; EPut d; ECallback r], s') /\
    rq_cert r = c /\ rq_type r = RT_REVOKE /\ rq_status r = ST_SUCCESS /\ rs_status s' = ST_SUCCESS /\ rs_issued s' = rs_issued s /\ pending ops ca' id = None.
Proof.
  intros E g S ops ctype life id sk c code k t ca s ri rj i LA LS CL LK B TB CK.
  destruct (guess_sent_c E g S ops RT_REVOKE ctype life id sk c code k t ca s ri i code LA LS CL LK B TB) as (r & cs & m & x & iv2 & msg & P & CR & RT & K & DV & IE & TR & SEL & GC & N & SB & OP & I2 & RN & FM & HC).
  pose proof (lc_at _ _ _ _ _ _ _ LK) as A. destruct (lc_cert _ _ _ _ _ _ _ LK) as (cc & PC & PK).
  destruct (pending_live_s E g S ops ca id r A P) as [ID LV].
  pose proof (chal_forward_c E g S ops ca i x id r _ ctype iv2 A N P SB OP) as FW. rewrite HC in FW. rewrite bytes_eqb_refl in FW.
  cbn [ret_success h_out h_email h_req email_effs] in FW. change (negb (NO_ERROR =? NO_ERROR)) with false in FW. cbv iota in FW.
  set (r1 := set_cs None (set_ctype ctype (set_status ST_PENDING (set_div iv2 r)))) in *.
  unfold after_challenge in FW. change (rq_status r1 =? ST_PENDING) with true in FW. change (rq_type r1) with (rq_type r) in FW. rewrite RT in FW.
  change ((RT_REVOKE =? RT_NEW) || (RT_REVOKE =? RT_RENEW)) with false in FW. change (RT_REVOKE =? RT_REVOKE) with true in FW. cbv iota in FW.
  set (r2 := set_status ST_SUCCESS r1) in *. change (rq_id r1) with (rq_id r) in FW.
  assert (PL : chal_plain r2 [] [] = Ok [Tlv T_Status (nni_enc ST_SUCCESS)]) by reflexivity.
  pose proof (initial_small_c E g S ops ca id r i A P) as CI.
  destruct (chal_encode_fine E r2 [] [] (rnd_iv i) _ (live_eiv r LV) (rnd_iv_len i) PL) as (payload & r3 & EN); [vm_compute; reflexivity|change (rq_eiv r2) with (rq_eiv r); lia|].
  rewrite EN in FW. unfold finish in FW. cbn [app] in FW. pose proof (ok_step E g S ops ca i x _ FW) as ST.
  assert (NF : name_fits []) by (split; [constructor|unfold fits; vm_compute; reflexivity]).
  destruct (reply_read E g (i_name x) r2 [] [] i rj [] payload r3 (upd_eiv iv2 (upd_ctype ctype s)) cc LA LS (live_eiv r LV) (fun c0 Q => ltac:(discriminate))
    ltac:(vm_compute; discriminate) NF NF ltac:(vm_compute; reflexivity) ltac:(vm_compute; reflexivity) EN PC PK (eq_sym K)) as (s3 & RR & TO & _ & _).
  { pose proof (lc_id _ _ _ _ _ _ _ LK) as Q. cbn. congruence. }
  { exact DV. }
  { exact I2. }
  { change (rq_eiv r2) with (rq_eiv r). rewrite (initial_ne _ _ IE). exact RN. }
  pose proof (deleted_gone_s E g S ops _ _ _ _ id A ST (or_introl (f_equal EDelete ID))) as GONE.
  assert (R3 : rq_cert r3 = c /\ rq_type r3 = RT_REVOKE /\ rq_status r3 = ST_SUCCESS).
  { unfold chal_encode in EN. rewrite PL in EN. cbn [bind] in EN. destruct (encode_aes _ _ _ _ _ _) as [o iv]. injection EN as _ <-. cbn. auto. }
  eexists. exists s3, (reply_data E g (i_name x) payload), r3. split.
  { unfold round. rewrite SEL, GC, ST. cbn [puts flat_map app]. rewrite RR, <- ID. reflexivity. }
  destruct R3 as (Q1 & Q2 & Q3). split; [exact Q1|]. split; [exact Q2|]. split; [exact Q3|].
  destruct TO as (T1 & _ & T2 & _). split; [exact T1|]. split; [exact (proj1 (T2 eq_refl))|exact GONE].
Qed.
Lemma revoke_right_change : forall E S (ops : store_ops S) ctype life id sk c code k t g ca s ri rj i, env_laws E -> code_life ctype life ->
  revocation_change E ops ctype life id sk c (Some (code, k, t)) g ca s -> (t <= in_t1 i < t + sec life - 1000)%Z -> clock_ok rj ->
  exists ca' s' d r, round E g ops ca s ri rj i ctype [(bs "code", code)] = Some (ca', [EDelete id; EPut d; ECallback r], s') /\
    rq_cert r = c /\ rq_type r = RT_REVOKE /\ rq_status r = ST_SUCCESS /\ rs_status s' = ST_SUCCESS /\ rs_issued s' = rs_issued s /\ pending ops ca' id = None.
Proof.
  intros E S ops ctype life id sk c code k t g ca s ri rj i L CL SE TB CK. pose proof L as [LA LE LH LS LC].
  destruct (revocation_linked_c E S ops ctype life id sk c _ g ca s L (fun _ => CL) SE) as [LK PC].
  exact (revoke_right_c E g S ops ctype life id sk c code k t ca s ri rj i LA LS CL LK PC TB CK).
Qed.

(** ** Another key *)
Lemma revoke_key_change : forall E S (ops : store_ops S) ctype life id sk c code k t g ca s g' ca' ri i, env_laws E -> code_life ctype life ->
  revocation_change E ops ctype life id sk c (Some (code, k, t)) g ca s -> quiet_change E ops id (o_pub E sk) g ca g' ca' ->
  (forall m, o_verify E (o_pub E (cf_sk g)) m (o_sign E (cf_sk g') m) = false) -> (t <= in_t1 i < t + sec life - 1000)%Z ->
  exists x s' ca2 d r, (exists m s1, select_challenge s ctype = (Ok m, s1) /\ gen_challenge E s1 ri [(bs "code", code)] = (Ok x, s')) /\
    step E g' ops ca' (EvInterest i x) = Some (ca2, [EDelete id; EPut d; ECallback r]) /\ rq_cert r = c /\ rq_type r = RT_REVOKE /\ rq_status r = ST_SUCCESS /\
    pending ops ca2 id = None /\ forall rj, fst (on_challenge_response E s' rj d) = Exn.
Proof.
  intros E S ops ctype life id sk c code k t g ca s g' ca' ri i L CL SE QC NV TB. pose proof L as [LA LE LH LS LC].
  destruct (revocation_linked_c E S ops ctype life id sk c _ g ca s L (fun _ => CL) SE) as [LK0 B]. cbn [phase_code] in B.
  destruct LK0 as [A0 LN PK0 SZ0 ID0 KP PF (cc & PC & PK) (r0 & P0 & CR0 & RQ0)]. destruct QC as (tr & ST0 & F). rewrite <- PK0, <- CR0 in F.
  pose proof (quiet_csteps E S ops id r0 g ca tr g' ca' ST0 (r_at_k _ _ _ _ _ A0) P0 F) as P0'.
  set (nc := Cert [] true (Some (o_pub E (cf_sk g'))) None None [] []).
  set (p := Profile (p_prefix (rs_profile s)) [] [] [] 0%Z None [] (Some nc)).
  assert (LK : linked_c E g' ops RT_REVOKE ctype id sk c (Some (code, k, t)) ca' (swap_profile p s)).
  { constructor; auto; [exact (r_at_csteps _ _ _ _ _ _ _ _ A0 ST0)|cbn [swap_profile rs_profile p p_prefix]; rewrite (csteps_prefix _ _ _ _ _ _ _ _ ST0); exact PF|exists nc; split; reflexivity|].
    exists r0. split; [exact P0'|]. split; [exact CR0|]. exact RQ0. }
  clear ST0 F P0 P0' CR0 RQ0 A0 r0.
  destruct (guess_sent_c E g' S ops RT_REVOKE ctype life id sk c code k t ca' _ ri i code LA LS CL LK B TB) as (r & cs & m & x & iv2 & msg & P & CR & RT & K & DV & IE & TR & SEL & GC & N & SB & OP & I2 & RN & FM & HC).
  pose proof (lc_at _ _ _ _ _ _ _ LK) as A. 
  destruct (pending_live_s E g' S ops ca' id r A P) as [ID LV].
  pose proof (chal_forward_c E g' S ops ca' i x id r _ ctype iv2 A N P SB OP) as FW. rewrite HC in FW. rewrite bytes_eqb_refl in FW.
  cbn [ret_success h_out h_email h_req email_effs] in FW. change (negb (NO_ERROR =? NO_ERROR)) with false in FW. cbv iota in FW.
  set (r1 := set_cs None (set_ctype ctype (set_status ST_PENDING (set_div iv2 r)))) in *.
  unfold after_challenge in FW. change (rq_status r1 =? ST_PENDING) with true in FW. change (rq_type r1) with (rq_type r) in FW. rewrite RT in FW.
  change ((RT_REVOKE =? RT_NEW) || (RT_REVOKE =? RT_RENEW)) with false in FW. change (RT_REVOKE =? RT_REVOKE) with true in FW. cbv iota in FW.
  set (r2 := set_status ST_SUCCESS r1) in *. change (rq_id r1) with (rq_id r) in FW.
  assert (PL : chal_plain r2 [] [] = Ok [Tlv T_Status (nni_enc ST_SUCCESS)]) by reflexivity.
  pose proof (initial_small_c E g' S ops ca' id r i A P) as CI.
  destruct (chal_encode_fine E r2 [] [] (rnd_iv i) _ (live_eiv r LV) (rnd_iv_len i) PL) as (payload & r3 & EN); [vm_compute; reflexivity|change (rq_eiv r2) with (rq_eiv r); lia|].
  rewrite EN in FW. unfold finish in FW. cbn [app] in FW. pose proof (ok_step E g' S ops ca' i x _ FW) as ST.
  pose proof (deleted_gone_s E g' S ops _ _ _ _ id A ST (or_introl (f_equal EDelete ID))) as GONE.
  assert (R3 : rq_cert r3 = c /\ rq_type r3 = RT_REVOKE /\ rq_status r3 = ST_SUCCESS).
  { unfold chal_encode in EN. rewrite PL in EN. cbn [bind] in EN. destruct (encode_aes _ _ _ _ _ _) as [o iv]. injection EN as _ <-. cbn. auto. }
  destruct (swap_gen E p s ctype ri _ x _ eq_refl GC) as (s' & GC' & PR).
  exists x, s'. eexists. exists (reply_data E g' (i_name x) payload), r3. split; [exists m, (upd_ctype ctype s); split; [exact (swap_select _ _ _ _ _ SEL)|exact GC']|].
  split; [rewrite <- ID at 1; exact ST|]. destruct R3 as (Q1 & Q2 & Q3). split; [exact Q1|]. split; [exact Q2|]. split; [exact Q3|].
  split; [exact GONE|]. intros rj. unfold on_challenge_response, check_reply. rewrite PR, PC. unfold verify_data. rewrite PK.
  change (d_sig (reply_data E g' (i_name x) payload)) with (o_sign E (cf_sk g') (data_msg (reply_data E g' (i_name x) payload))). rewrite NV. reflexivity.
Qed.
