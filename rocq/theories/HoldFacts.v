(** Proofs about a stranger's request for a revocation. *)
From Coq Require Import Lia.
From Verif Require Import CaProps TraceFacts TraceProps RefusedFacts VerdictFacts RequesterFacts OutcomeFacts SessionFacts RevokeFacts GrowthFacts.
From Verif Require Export Spec_Hold.
Local Open Scope N_scope.

Lemma revoke_admissible : forall E g i c ecdh id x, env_laws E -> revocable E g i c -> i_params x = Some (req_encode E RT_REVOKE (o_ecdh_pub E ecdh) c) ->
  admissible E g i RT_REVOKE id x (o_ecdh_pub E ecdh) c.
Proof.
  intros E g i c ecdh id x [LA LE LH LS LC] [NP SG WI (W1 & W2 & W3 & W4)] Q.
  assert (FE : fits (o_ecdh_pub E ecdh)) by (pose proof (l_ecdh_pub_len E LE ecdh); unfold fits; lia).
  constructor; [exact WI|apply carries_encoded; auto|apply (l_ecdh_pub_nonempty E LE)|rewrite (l_ecdh_ok E LE); discriminate|exact NP|right; auto|unfold key_derivable; rewrite (l_hkdf_ok E LH); discriminate].
Qed.
Lemma undisturbed_keeps : forall E g S (ops : store_ops S) id r s s', ca_at E g ops s -> pending ops s id = Some r -> undisturbed E g ops id (public_key (rq_cert r)) s s' ->
  ca_at E g ops s' /\ pending ops s' id = Some r /\ ca_idkey s' = ca_idkey s.
Proof.
  intros E g S ops id r s s' A P (tr & ST & F). revert A P F. induction ST as [s|s ev es s1 tr s2 ST _ IH]; intros A P F; [auto|].
  apply Forall_cons_iff in F as [[F1 F2] F]. pose proof (ca_at_step _ _ _ _ _ _ _ _ A ST) as A1.
  pose proof (quiet_step E g S ops (HStep s ev es s1) id r A ST P F2 (fun Q => False_ind _ (F1 Q))) as P1.
  destruct (IH A1 P1 F) as (A2 & P2 & K). split; [exact A2|]. split; [exact P2|]. rewrite K. clear - ST F1. cbn [h_ev] in F1. destruct ev as [i x|i x n key|key|i]; cbn [restarts] in F1; try tauto.
  - exact (idkey_step _ _ _ _ _ _ _ _ _ ST).
  - cbn [step] in ST. destruct (on_get_profile E g (ca_prof s) i) as [es0 [u| | |]]; try discriminate; injection ST as <- _; apply idkey_effs.
Qed.
Lemma holder_sends : forall E g s0 c sk i, revocable E g i c -> prepared E g s0 c sk ->
  gen_revoke E s0 c = Some (unsigned_interest E (p_prefix (cfp g) ++ [r_CA; gc (bs "REVOKE")]) (req_encode E RT_REVOKE (o_ecdh_pub E (rs_ecdh s0)) c)).
Proof.
  intros E g s0 c sk i [NP _ _ _] (_ & PF & _). unfold gen_revoke. rewrite PF. destruct NP as (suffix & kid & i0 & v0 & Q & _).
  replace (is_prefix (p_prefix (cfp g)) (c_name c)) with true; [reflexivity|]. symmetry. apply is_prefix_iff. rewrite Q. eexists. reflexivity.
Qed.
Lemma revoke_addressed : forall E g p, addressed g VRevoke (i_name (unsigned_interest E (p_prefix (cfp g) ++ [gc (bs "CA"); gc (bs "REVOKE")]) p)).
Proof. intros E g p. unfold unsigned_interest. cbn [i_name]. eexists. rewrite <- app_assoc. reflexivity. Qed.
Lemma holder_refused : forall E g S (ops : store_ops S) s s0 c sk i r, env_laws E -> suffix_limit_sane g -> ca_at E g ops s -> revocable E g i c -> prepared E g s0 c sk ->
  pending ops s (id_for E (ca_idkey s) (c_name c)) = Some r ->
  exists y d, gen_revoke E s0 c = Some y /\ step E g ops s (EvInterest i y) = Some (s, [EPut d]) /\
    told_error E g y 4 (bs "Duplicate Request ID: The same request has been seen before.") d /\ forall rj, on_new_response E s0 rj d = (Exn, s0).
Proof.
  intros E g S ops s s0 c sk i r L SANE A RV PR P. pose proof (holder_sends E g s0 c sk i RV PR) as GS. eexists.
  pose proof (revoke_admissible E g i c (rs_ecdh s0) (id_for E (ca_idkey s) (c_name c)) _ L RV (eq_refl : i_params (unsigned_interest E (p_prefix (cfp g) ++ [r_CA; gc (bs "REVOKE")]) (req_encode E RT_REVOKE (o_ecdh_pub E (rs_ecdh s0)) c)) = _)) as [A1 A2 A3 A4 A5 A6 A7].
  destruct (proj2 (@refused_iff E g S ops s i RT_REVOKE _ _ _ A SANE (or_intror eq_refl) (revoke_addressed E g _))
    (rw_taken E g i RT_REVOKE (ca_idkey s) (fun id => pending ops s id <> None) _ _ c (conj A1 (conj A2 (conj A3 (conj A4 A5)))) A6 A7 (fun Q => ltac:(cbv beta in Q; rewrite P in Q; discriminate Q)))) as (d & ST & TE).
  exists d. split; [exact GS|]. split; [exact ST|]. split; [exact TE|]. intros rj. destruct PR as (_ & _ & (cc & PC & PK) & _).
  apply (bad_rejected E s0 rj d cc PC). right. exists 4. split; [discriminate|]. apply decoded_error; [|discriminate]. destruct TE as (_ & _ & Q). rewrite Q. reflexivity.
Qed.
Lemma stranger_holds : forall E g S (ops : store_ops S) s c ecdh i, env_laws E -> suffix_limit_sane g -> ca_at E g ops s -> revocable E g i c ->
  let id := id_for E (ca_idkey s) (c_name c) in pending ops s id = None ->
  let x := strangers_revoke E g ecdh c in i_sig x = None /\
  exists s1 es, step E g ops s (EvInterest i x) = Some (s1, es) /\
    forall s2 i2 s0 sk, undisturbed E g ops id (public_key c) s1 s2 -> revocable E g i2 c -> prepared E g s0 c sk ->
      exists y d, gen_revoke E s0 c = Some y /\ step E g ops s2 (EvInterest i2 y) = Some (s2, [EPut d]) /\
        told_error E g y 4 (bs "Duplicate Request ID: The same request has been seen before.") d /\ forall rj, on_new_response E s0 rj d = (Exn, s0).
Proof.
  intros E g S ops s c ecdh i L SANE A RV id P x. split; [reflexivity|].
  pose proof (revoke_admissible E g i c ecdh id x L RV eq_refl) as ADM.
  destruct (new_accepted E g S ops s i RT_REVOKE x _ c A SANE (or_intror eq_refl) (revoke_addressed E g _) ADM P) as (s1 & ST & P1 & _). fold id in ST, P1.
  eexists. eexists. split; [exact ST|]. intros s2 i2 s0 sk U RV2 PR.
  destruct (undisturbed_keeps E g S ops id _ s1 s2 (ca_at_step _ _ _ _ _ _ _ _ A ST) P1 U) as (A2 & P2 & K).
  rewrite (idkey_step _ _ _ _ _ _ _ _ _ ST) in K. eapply holder_refused; eauto. rewrite K. exact P2.
Qed.
Lemma holder_opens_iff : forall E g S (ops : store_ops S) s s0 rj i c sk, env_laws E -> config_fits g -> ca_at E g ops s -> revocable E g i c -> prepared E g s0 c sk -> length (ri_salt0 rj) = 32%nat ->
  (exists ca es s', revoking E g ops s s0 rj i c = Some (ca, es, s', p_challenges (cfp g))) <-> pending ops s (id_for E (ca_idkey s) (c_name c)) = None.
Proof.
  intros E g S ops s s0 rj i c sk L CF A RV PR L2. split.
  - intros (ca & es & s' & H). destruct (pending ops s _) as [r|] eqn:P; [|reflexivity].
    destruct (holder_refused E g S ops s s0 c sk i r L (proj1 CF) A RV PR P) as (y & d & GS & ST & _ & Q). unfold revoking in H. rewrite GS, ST in H. cbn [puts flat_map app] in H. rewrite Q in H. discriminate.
  - intros P. destruct (revoke_open E g S ops [] 0 s s0 rj i c sk L CF A RV PR P L2) as (ca & es & s' & H & _). eauto.
Qed.
Lemma empty_unreadable : forall E r x, params_of x = [] -> forall pt, ~ unsealed E r x pt.
Proof. intros E r x Q pt (iv' & els & p & iv & tag & PA & G & _). rewrite Q in PA. injection PA as <-. discriminate G. Qed.
Lemma holder_clears : forall E g S (ops : store_ops S) s s0 rj i i2 c sk r, env_laws E -> config_fits g -> ca_at E g ops s ->
  let id := id_for E (ca_idkey s) (c_name c) in pending ops s id = Some r -> public_key (rq_cert r) = o_pub E sk ->
  revocable E g i2 c -> prepared E g s0 c sk -> length (ri_salt0 rj) = 32%nat ->
  exists s1 d ca es s', step E g ops s (EvInterest i (empty_challenge E g id sk)) = Some (s1, [EDelete id; EPut d]) /\
    revoking E g ops s1 s0 rj i2 c = Some (ca, es, s', p_challenges (cfp g)).
Proof.
  intros E g S ops s s0 rj i i2 c sk r L CF A id P PK RV PR L2. pose proof L as [LA LE LH LS LC].
  assert (N : names_request g id (empty_challenge E g id sk)).
  { eexists _, _. unfold empty_challenge, signed_interest. cbn [i_name]. rewrite <- app_assoc. cbn [app]. split; [reflexivity|]. apply request_id_len, LH. }
  assert (SB : signed_by E (empty_challenge E g id sk) (public_key (rq_cert r))).
  { rewrite PK. eexists. split; [reflexivity|]. apply (l_sign_verify E LS). }
  destruct (@gives_up_drops E g S ops s i _ id r 4 A N P SB (gu_unreadable _ _ _ _ _ (empty_unreadable E r (empty_challenge E g id sk) eq_refl))) as (s1 & d & ST & _ & P1).
  pose proof (ca_at_step _ _ _ _ _ _ _ _ A ST) as A1. pose proof (idkey_step _ _ _ _ _ _ _ _ _ ST) as K.
  destruct (proj2 (holder_opens_iff E g S ops s1 s0 rj i2 c sk L CF A1 RV PR L2)) as (ca & es & s' & RO); [rewrite K; exact P1|].
  exists s1, d, ca, es, s'. auto.
Qed.
Lemma holder_restart : forall E g S (ops : store_ops S) s key s0 rj i c sk, env_laws E -> config_fits g -> ca_at E g ops s -> durable E S ops -> pending ops s (id_for E key (c_name c)) = None ->
  revocable E g i c -> prepared E g s0 c sk -> length (ri_salt0 rj) = 32%nat ->
  exists ca es s', revoking E g ops (restart ops key s) s0 rj i c = Some (ca, es, s', p_challenges (cfp g)).
Proof.
  intros E g S ops s key s0 rj i c sk L CF A D P RV PR L2. apply (holder_opens_iff E g S ops (restart ops key s) s0 rj i c sk L CF); auto.
  - exact (ca_at_step E g S ops s (EvRestart key) _ [] A eq_refl).
  - destruct D. exact P.
Qed.
Lemma squatter_holds : forall E g S (ops : store_ops S) s c i x peer c', env_laws E -> suffix_limit_sane g -> ca_at E g ops s ->
  let id := id_for E (ca_idkey s) (c_name c) in pending ops s id = None -> addressed g VNew (i_name x) -> admissible E g i RT_NEW id x peer c' -> c_name c' = c_name c ->
  exists s1 es, step E g ops s (EvInterest i x) = Some (s1, es) /\
    forall s2 i2 s0 sk, undisturbed E g ops id (public_key c') s1 s2 -> revocable E g i2 c -> prepared E g s0 c sk ->
      (exists y d, gen_revoke E s0 c = Some y /\ step E g ops s2 (EvInterest i2 y) = Some (s2, [EPut d]) /\
        told_error E g y 4 (bs "Duplicate Request ID: The same request has been seen before.") d /\ forall rj, on_new_response E s0 rj d = (Exn, s0)) /\
      forall i3 y, names_request g id y -> ~ signed_by E y (public_key c') ->
        exists d, step E g ops s2 (EvInterest i3 y) = Some (s2, [EPut d]) /\ error_reply E g y (3 (* bad signature *)) d.
Proof.
  intros E g S ops s c i x peer c' L SANE A id P AD ADM NM.
  assert (ID : request_id_of E (ca_idkey s) (c_name c') = id) by (rewrite NM; reflexivity).
  destruct (new_accepted E g S ops s i RT_NEW x peer c' A SANE (or_introl eq_refl) AD ltac:(rewrite ID; exact ADM) ltac:(rewrite ID; exact P)) as (s1 & ST & P1 & _). rewrite ID in ST, P1.
  eexists. eexists. split; [exact ST|]. intros s2 i2 s0 sk U RV2 PR.
  destruct (undisturbed_keeps E g S ops id _ s1 s2 (ca_at_step _ _ _ _ _ _ _ _ A ST) P1 U) as (A2 & P2 & K).
  rewrite (idkey_step _ _ _ _ _ _ _ _ _ ST) in K. split; [eapply holder_refused; eauto; rewrite K; exact P2|].
  intros i3 y N NS. exact (unsigned_refused E g S ops s2 i3 y id _ A2 N P2 NS).
Qed.
