(** Proofs about revocation after a change of the CA's configuration. *)
From Coq Require Import Lia.
From Verif Require Import RequesterFacts OutcomeFacts RevokeFacts RefusedFacts.
From Verif Require Export Spec_ReconfigRevoke ReconfigSessionFacts.
Local Open Scope N_scope.

(** ** Refusals, as in RefusedFacts *)
Lemma refused_c : forall E g S (ops : store_ops S) s i rt x code text, r_at E g ops s -> suffix_limit_sane g -> rt = RT_NEW \/ rt = RT_REVOKE -> addressed g (verb_of rt) (i_name x) ->
  (exists d, step E g ops s (EvInterest i x) = Some (s, [EPut d]) /\ told_error E g x code text d) <-> refused E g i rt (ca_idkey s) (fun id => pending ops s id <> None) x code text.
Proof.
  intros E g S ops s i rt x code text A SANE RT AD. set (taken := fun id => pending ops s id <> None).
  pose proof (on_interest_new E g S ops s i rt x RT AD) as OI. set (add_ok := fun r => match s_add ops (ca_store s) r with Some _ => true | None => false end) in *.
  assert (TK : forall peer c, carries E rt x peer c -> add_ok (created E g i rt (id_for E (ca_idkey s) (c_name c)) peer c) = false -> taken (id_for E (ca_idkey s) (c_name c))).
  { intros peer c C AO P. apply (add_pending_c E g S ops s i rt _ x peer c A RT C) in P. unfold add_ok in AO. rewrite P in AO. discriminate. }
  assert (ACC : forall r d, fst (on_interest E g ops s i x) = [EAdd r; EPut d; ECallback r] -> forall d', step E g ops s (EvInterest i x) <> Some (s, [EPut d'])).
  { intros r d Q d' ST. cbn [step] in ST. destruct (on_interest E g ops s i x) as [es o]. cbn [fst] in Q. subst es. destruct o; congruence. }
  destruct (on_new_exact add_ok (ca_idkey s) i rt x taken RT SANE TK) as [(code0 & text0 & Q & PE & R)|[(r & d & Q)|Q]].
  - rewrite Q in OI. unfold put_error in OI. pose proof (ok_step E g S ops s i x _ OI) as ST. destruct (@RefusedFacts.told E g x code0 text0 (error_data E g (i_name x) code0 text0) PE) as (T1 & T2 & _). split.
    + intros (d & ST' & T). assert (d = error_data E g (i_name x) code0 text0) by congruence. subst d. destruct (T2 code text T) as [-> ->]. exact R.
    + intros R'. destruct (refused_one i rt (ca_idkey s) taken x _ _ _ _ RT R R') as [-> ->]. exists (error_data E g (i_name x) code0 text0). split; [|exact T1]. rewrite ST. destruct s; reflexivity.
  - split; [intros (d' & ST & _); exfalso; rewrite <- OI in Q; exact (ACC r d Q d' ST)|]. intros R'. exfalso.
    destruct (on_new E g add_ok (ca_idkey s) i rt x) as [es o] eqn:ON. cbn [fst] in Q. destruct (on_new_cases E g add_ok (ca_idkey s) i rt x es o RT ON) as [(peer & c & ADM & AO & _)|[(code0 & text0 & _ & Q' & _)|(_ & Q' & _)]]; try congruence.
    refine (refused_not_admissible i rt (ca_idkey s) taken x code text peer c RT R' ADM _). intros NT. apply NT.
    apply (add_pending_c E g S ops s i rt _ x peer c A RT (ad_params _ _ _ _ _ _ _ _ ADM)). exact AO.
  - split.
    + intros (d' & ST & _). exfalso. cbn [step] in ST. rewrite OI, Q in ST. congruence.
    + intros R'. exfalso. refine (refused_not_upset i rt (ca_idkey s) taken x code text RT R' _). apply (new_throws_iff add_ok (ca_idkey s) i rt x RT SANE). rewrite Q. reflexivity.
Qed.
Lemma refused_reconfigured : forall E S (ops : store_ops S) tr g s i rt x code text, reconfigured E ops tr g s -> suffix_limit_sane g -> rt = RT_NEW \/ rt = RT_REVOKE -> addressed g (verb_of rt) (i_name x) ->
  (exists d, step E g ops s (EvInterest i x) = Some (s, [EPut d]) /\ told_error E g x code text d) <-> refused E g i rt (ca_idkey s) (fun id => pending ops s id <> None) x code text.
Proof. intros E S ops tr g s i rt x code text H. apply refused_c. exists tr. exact H. Qed.

(** ** What was issued *)
Lemma csteps_cut : forall S E (ops : store_ops S) g s l g2 s2, csteps E ops g s l g2 s2 -> forall a g1 st b, l = a ++ (g1, st) :: b -> csteps E ops g s (a ++ [(g1, st)]) g1 (h_post st).
Proof.
  intros S E ops g s l g2 s2 H. induction H as [g s|g s ev es s1 tr g2 s2 ST H2 IH|g g1 s key tr g2 s2 Q H2 IH|g x s tr g2 s2 _ IH|g c sk kl s tr g2 s2 _ IH]; intros a gx st b L.
  - destruct a; discriminate L.
  - destruct a as [|[ga sa] a]; cbn [app] in L |- *.
    + injection L as <- <- _. apply csteps_event; [exact ST|constructor].
    + injection L as <- <- L. apply csteps_event; [exact ST|exact (IH _ _ _ _ L)].
  - destruct a as [|[ga sa] a]; cbn [app] in L |- *.
    + injection L as <- <- _. apply csteps_change; [exact Q|constructor].
    + injection L as <- <- L. apply csteps_change; [exact Q|exact (IH _ _ _ _ L)].
  - apply (csteps_file _ _ _ x). exact (IH _ _ _ _ L).
  - apply (csteps_key _ _ _ c sk kl). exact (IH _ _ _ _ L).
Qed.
Lemma reconfigured_cut : forall S E (ops : store_ops S) tr g s g1 st, reconfigured E ops tr g s -> In (g1, st) tr ->
  exists a, reconfigured E ops (a ++ [(g1, st)]) g1 (h_post st) /\ p_prefix (cfp g1) = p_prefix (cfp g).
Proof.
  intros S E ops tr g s g1 st H I. apply in_split in I as (a & b & ->). exists a. pose proof (reconfigured_mid _ _ _ _ _ _ _ _ _ H) as (_ & _ & _ & _ & SS).
  pose proof (csteps_prefix _ _ _ _ _ _ _ _ SS) as PX. destruct H as [LC NF B (g0 & key & H)]. split; [|congruence]. constructor; [exact LC|rewrite <- PX; exact NF|exact B|].
  exists g0, key. exact (csteps_cut _ _ _ _ _ _ _ _ H _ _ _ _ eq_refl).
Qed.
Lemma issued_still_revocable : forall E S (ops : store_ops S) tr g s g1 c i, env_laws E -> reconfigured E ops tr g s -> issued_under tr g1 c -> public_key (cf_cert g) = o_pub E (cf_sk g1) -> wf_name (cf_keyloc g1) ->
  name_policy g (c_name c) -> within (in_t1 i) (c_validity (cf_cert g)) -> fits (enc_tlv (cert_tlv E c)) -> blen (name_wire (c_name c)) < 2 ^ 31 -> revocable E g i c.
Proof.
  intros E S ops tr g s g1 c i L H (st & IN & IS) PK WK NP W F B. destruct L as [LA LE LH LS LC]. destruct (reconfigured_cut _ _ _ _ _ _ _ _ H IN) as (a & H1 & _).
  destruct (issued_c E S ops a g1 st _ c H1 IS) as (id & key & c0 & a1 & g0 & new & a2 & gs & start & a3 & i0 & x0 & i1 & p1 & ty1 & r & cs & em & i2 & p2 & ty & nb & na & _ & AC & _ & _ & _ & _ & _ & _ & _ & _ & CE & _ & V & _).
  destruct AC as (i3 & x1 & peer & _ & _ & [_ (cty & _ & els & t & _ & _ & _ & _ & _ & _ & (inner & d & _ & _ & CD) & _) _ _ _ _ _] & _).
  destruct CE as (kn & is0 & v0 & v1 & Q0 & Q1 & Q2 & Q3 & Q4 & Q5 & Q6). unfold cert_decode in CD. destruct (data_decode E d) as [c1|] eqn:DD; [|discriminate]. destruct (cert_ok c1) eqn:OK; [|discriminate]. injection CD as ->.
  assert (W0 : wf_cert c0). { unfold data_decode in DD. destruct (t_type d =? T_Data); [|discriminate]. exact (l_cert_wf E LC _ _ DD). }
  constructor.
  - exact NP.
  - unfold cert_signed_by. rewrite PK, Q6. apply (l_sign_verify E LS).
  - exact W.
  - destruct W0 as (N0 & _ & V0). unfold cert_ok in OK |- *. apply andb_true_iff in OK as [OK C0]. apply andb_true_iff in OK as [OK _]. split; [|split].
    + split; [|split].
      * rewrite Q0 in N0. apply Forall_app in N0 as [N0 _]. rewrite Q1. apply wf_name_app; [exact N0|]. constructor; [wft; reflexivity|]. constructor; [wft; apply fits_nni|constructor].
      * intros n QN. rewrite Q5 in QN. injection QN as <-. exact WK.
      * intros b a0 QV. rewrite Q3 in QV. exact (V0 b a0 QV).
    + rewrite Q2, C0, Q4. destruct NP as (suffix & kid & i4 & v2 & QN & _). rewrite QN, app_assoc, valid_cert_name_of_shape. reflexivity.
    + auto.
Qed.

(** ** The CA accepts the revocation *)
Lemma revoke_opens_c : forall E S (ops : store_ops S) tr g ca0 s0 rj i c sk, env_laws E -> config_fits g -> reconfigured E ops tr g ca0 -> revocable E g i c -> prepared E g s0 c sk ->
  let id := id_for E (ca_idkey ca0) (c_name c) in pending ops ca0 id = None -> length (ri_salt0 rj) = 32%nat ->
  exists ca es s r, revoking E g ops ca0 s0 rj i c = Some (ca, es, s, p_challenges (cfp g)) /\ pending ops ca id = Some r /\ rq_cert r = c /\ rq_type r = RT_REVOKE.
Proof.
  intros E S ops tr g ca0 s0 rj i c sk L (SANE & FC & _) H [NP SG WI (W1 & W2 & W3 & W4)] ((p & ecdh & id0 & ri & kn & nb & na & x0 & L0 & GN) & PF & (cc & PC & PK) & PKC) id P L2.
  destruct L as [LA LE LH LS LC]. pose proof (ex_intro _ tr H : r_at E g ops ca0) as A.
  assert (FR : exists ident, s0 = upd_keypair (Some (kn, sk)) (upd_identity ident (request_init p RT_REVOKE ecdh id0))).
  { unfold gen_new in GN. destruct (negb _); [discriminate|]. destruct kn as [|k0 kn]; [discriminate|]. destruct (get_neg 2 (k0 :: kn)); [|discriminate]. destruct (comp_eqb _ _); [|discriminate].
    injection GN as _ <-. eexists. reflexivity. }
  destruct FR as (ident & FR). clear GN.
  assert (FE : fits (o_ecdh_pub E (rs_ecdh s0))) by (pose proof (l_ecdh_pub_len E LE (rs_ecdh s0)); unfold fits; lia).
  assert (PX : is_prefix (p_prefix (rs_profile s0)) (c_name c) = true).
  { rewrite PF. destruct NP as (suffix & kid & i0 & v0 & Q & _). apply is_prefix_iff. rewrite Q. eexists. reflexivity. }
  set (x := unsigned_interest E (p_prefix (rs_profile s0) ++ [r_CA; gc (bs "REVOKE")]) (req_encode E RT_REVOKE (o_ecdh_pub E (rs_ecdh s0)) c)).
  assert (GR : gen_revoke E s0 c = Some x) by (unfold gen_revoke; rewrite PX; reflexivity).
  assert (AD : addressed g VRevoke (i_name x)) by (unfold x, unsigned_interest; cbn [i_name]; rewrite PF; eexists; rewrite <- app_assoc; reflexivity).
  assert (ADM : admissible E g i RT_REVOKE id x (o_ecdh_pub E (rs_ecdh s0)) c).
  { constructor; [exact WI|apply carries_encoded; auto|apply (l_ecdh_pub_nonempty E LE)|rewrite (l_ecdh_ok E LE); discriminate|exact NP|right; auto|unfold key_derivable; rewrite (l_hkdf_ok E LH); discriminate]. }
  destruct (new_accepted_c E g S ops ca0 i RT_REVOKE x _ c A SANE (or_intror eq_refl) AD ADM P) as (ca' & ST & P' & _). change (request_id_of E (ca_idkey ca0) (c_name c)) with id in ST, P'.
  pose proof (new_answered E g i x id s0 rj cc LE LH LS FC PC PK ltac:(rewrite FR; exact L0) L2 (request_id_len _ _ _ LH)) as NR.
  eexists. eexists. eexists. eexists. split; [unfold revoking; rewrite GR, ST; cbn [puts flat_map app]; rewrite NR; reflexivity|]. split; [exact P'|split; reflexivity].
Qed.

(** ** It does not *)
Lemma revoke_other_key : forall E S (ops : store_ops S) tr g s g1 c i x peer, reconfigured E ops tr g s -> suffix_limit_sane g -> issued_under tr g1 c ->
  ~ cert_signed_by E c (public_key (cf_cert g)) -> addressed g VRevoke (i_name x) -> usable E g i RT_REVOKE x peer c ->
  exists d, step E g ops s (EvInterest i x) = Some (s, [EPut d]) /\ told_error E g x 3 (bs "Invalid signature in the certificate to revoke.") d.
Proof.
  intros E S ops tr g s g1 c i x peer H SANE _ NS AD U. apply (refused_reconfigured E S ops tr g s i RT_REVOKE x _ _ H SANE (or_intror eq_refl) AD). exact (rw_revoke _ _ _ _ _ _ _ peer c U eq_refl NS).
Qed.
Lemma revoke_other_name : forall E S (ops : store_ops S) tr g s g1 c i x peer, reconfigured E ops tr g s -> suffix_limit_sane g -> issued_under tr g1 c ->
  ~ name_policy g (c_name c) -> addressed g VRevoke (i_name x) -> readable E g i RT_REVOKE x peer c ->
  exists d, step E g ops s (EvInterest i x) = Some (s, [EPut d]) /\ told_error E g x 5 (bs "An invalid certificate name is being requested.") d.
Proof.
  intros E S ops tr g s g1 c i x peer H SANE _ NS AD U. apply (refused_reconfigured E S ops tr g s i RT_REVOKE x _ _ H SANE (or_intror eq_refl) AD). exact (rw_name _ _ _ _ _ _ _ peer c U NS).
Qed.
