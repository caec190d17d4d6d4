(** Proofs about requests that somebody else asked for first. *)
From Coq Require Import Lia.
From Verif Require Import CaProps TraceFacts TraceCounts TraceProps RefusedFacts VerdictFacts RequesterFacts OutcomeFacts SessionFacts GrowthFacts HoldFacts.
From Verif Require Export Spec_Forestall.
Local Open Scope N_scope.

Lemma name_of_request : forall E sk ri kn nb na sk' ri' nb' na', ri_version ri = ri_version ri' -> c_name (cert_request E sk ri kn nb na) = c_name (cert_request E sk' ri' kn nb' na').
Proof. intros E sk ri kn nb na sk' ri' nb' na' Q. unfold cert_request. cbn [c_name]. rewrite Q. reflexivity. Qed.
Lemma admissible_id : forall E g i rt id id' x peer c, hash_laws E -> admissible E g i rt id x peer c -> admissible E g i rt id' x peer c.
Proof. intros E g i rt id id' x peer c LH [A1 A2 A3 A4 A5 A6 A7]. constructor; auto. unfold key_derivable. rewrite (l_hkdf_ok E LH). discriminate. Qed.
Lemma told_duplicate : forall E g S (ops : store_ops S) s i rt x peer c r, ca_at E g ops s -> suffix_limit_sane g -> rt = RT_NEW \/ rt = RT_REVOKE -> addressed g (verb_of rt) (i_name x) ->
  admissible E g i rt (id_for E (ca_idkey s) (c_name c)) x peer c -> pending ops s (id_for E (ca_idkey s) (c_name c)) = Some r ->
  exists d, step E g ops s (EvInterest i x) = Some (s, [EPut d]) /\ told_error E g x 4 (bs "Duplicate Request ID: The same request has been seen before.") d.
Proof.
  intros E g S ops s i rt x peer c r A SANE RT AD [A1 A2 A3 A4 A5 A6 A7] P.
  apply (proj2 (@refused_iff E g S ops s i rt _ _ _ A SANE RT AD)).
  apply (rw_taken E g i rt (ca_idkey s) (fun id => pending ops s id <> None) _ peer c (conj A1 (conj A2 (conj A3 (conj A4 A5)))) A6 A7). cbv beta. rewrite P. discriminate.
Qed.
Lemma late_turned : forall E g S (ops : store_ops S) s i s0 ri kn sk nb na r, env_laws E -> suffix_limit_sane g -> ca_at E g ops s -> applies E g s0 ri i kn sk nb na ->
  pending ops s (id_for E (ca_idkey s) (c_name (cert_request E sk ri kn nb na))) = Some r -> turned_down E g ops s s0 ri i kn sk nb na.
Proof.
  intros E g S ops s i s0 ri kn sk nb na r [LA LE LH LS LC] SANE A AP P.
  destruct (request_admissible E g s0 ri i kn sk nb na (id_for E (ca_idkey s) (c_name (cert_request E sk ri kn nb na))) LC LE LH LS AP) as (y & identity & GN & AD & ADM & _).
  destruct (told_duplicate E g S ops s i RT_NEW y _ _ r A SANE (or_introl eq_refl) AD ADM P) as (d & ST & TE).
  exists y. eexists. exists d. split; [exact GN|]. split; [exact ST|]. split; [exact TE|]. intros rj.
  destruct (ap_cert _ _ _ _ _ _ _ _ _ AP) as (cc & PC & _).
  apply (bad_rejected E _ rj d cc); [exact PC|]. right. exists 4. split; [discriminate|]. apply decoded_error; [|discriminate]. destruct TE as (_ & _ & Q). rewrite Q. reflexivity.
Qed.
Lemma forestalled : forall E g S (ops : store_ops S) s i s1 ri1 kn sk1 nb1 na1, env_laws E -> suffix_limit_sane g -> ca_at E g ops s -> applies E g s1 ri1 i kn sk1 nb1 na1 ->
  let id := id_for E (ca_idkey s) (c_name (cert_request E sk1 ri1 kn nb1 na1)) in pending ops s id = None ->
  exists x s1' ca es, asks_new E s1 ri1 kn sk1 nb1 na1 x s1' /\ step E g ops s (EvInterest i x) = Some (ca, es) /\
    forall ca', undisturbed E g ops id (o_pub E sk1) ca ca' ->
      (forall i2 s0 ri sk nb na, applies E g s0 ri i2 kn sk nb na -> ri_version ri = ri_version ri1 -> turned_down E g ops ca' s0 ri i2 kn sk nb na) /\
      forall i3 y, names_request g id y -> ~ signed_by E y (o_pub E sk1) -> exists d, step E g ops ca' (EvInterest i3 y) = Some (ca', [EPut d]) /\ error_reply E g y (3 (* bad signature *)) d.
Proof.
  intros E g S ops s i s1 ri1 kn sk1 nb1 na1 L SANE A AP id P. pose proof L as [LA LE LH LS LC].
  destruct (request_admissible E g s1 ri1 i kn sk1 nb1 na1 id LC LE LH LS AP) as (x & identity & GN & AD & ADM & _).
  destruct (new_accepted E g S ops s i RT_NEW x _ _ A SANE (or_introl eq_refl) AD ADM P) as (ca & ST & P1 & _).
  exists x. eexists. exists ca. eexists. split; [exact GN|]. split; [exact ST|]. intros ca' U.
  destruct (undisturbed_keeps E g S ops id _ ca ca' (ca_at_step _ _ _ _ _ _ _ _ A ST) P1 U) as (A2 & P2 & K). rewrite (idkey_step _ _ _ _ _ _ _ _ _ ST) in K. split.
  - intros i2 s0 ri sk nb na AP2 V. eapply late_turned; eauto. rewrite K, (name_of_request E sk ri kn nb na sk1 ri1 nb1 na1 V). exact P2.
  - intros i3 y N NS. exact (unsigned_refused E g S ops ca' i3 y id _ A2 N P2 NS).
Qed.
Lemma opens_iff : forall E g S (ops : store_ops S) ca s0 ri rj i kn sk nb na, env_laws E -> config_fits g -> ca_at E g ops ca -> applies E g s0 ri i kn sk nb na -> length (ri_salt0 rj) = 32%nat ->
  (exists ca' es s', opening E g ops ca s0 ri rj i kn sk nb na = Some (ca', es, s', p_challenges (cfp g))) <->
  pending ops ca (id_for E (ca_idkey ca) (c_name (cert_request E sk ri kn nb na))) = None.
Proof.
  intros E g S ops ca s0 ri rj i kn sk nb na L CF A AP L2. split.
  - intros (ca' & es & s' & H). destruct (pending ops ca _) as [r|] eqn:P; [|reflexivity].
    destruct (late_turned E g S ops ca i s0 ri kn sk nb na r L (proj1 CF) A AP P) as (y & s1 & d & GN & ST & _ & Q). unfold asks_new in GN. unfold opening in H. rewrite GN, ST in H. cbn [puts flat_map app] in H. rewrite Q in H. discriminate.
  - intros P. destruct (opening_linked E g S ops [] ca s0 ri rj i kn sk nb na L CF A AP P L2) as (ca' & es & s' & H & _). eauto.
Qed.
Lemma idkey_stays : forall E g S (ops : store_ops S) s tr s', steps E g ops s tr s' -> Forall (fun st => ~ restarts (h_ev st)) tr -> ca_idkey s' = ca_idkey s.
Proof.
  intros E g S ops s tr s' H. induction H as [s|s ev es s1 tr s2 ST _ IH]; intros F; [reflexivity|]. apply Forall_cons_iff in F as [F1 F]. rewrite (IH F). cbn [h_ev] in F1.
  destruct ev as [i x|i x n key|key|i]; cbn [restarts] in F1; try tauto.
  - exact (idkey_step _ _ _ _ _ _ _ _ _ ST).
  - cbn [step] in ST. destruct (on_get_profile E g (ca_prof s) i) as [es0 [u| | |]]; try discriminate; injection ST as <- _; apply idkey_effs.
Qed.
Lemma was_heard : forall E g S (ops : store_ops S) tr s id, env_laws E -> suffix_limit_sane g -> ca_history E g ops tr s -> Forall (fun st => ~ restarts (h_ev st)) tr ->
  pending ops s id <> None -> heard_of E (ca_idkey s) id tr.
Proof.
  intros E g S ops tr s id L SANE H F P. destruct (pending ops s id) as [r|] eqn:PR; [clear P|destruct (P eq_refl)].
  destruct (pending_good E g S ops s id r (history_at _ _ _ _ _ _ H) PR) as (_ & _ & _ & _ & RT & _).
  destruct (has_origin S E g ops tr s id r H PR) as (a & st & b & -> & (i & x & peer & HD & AD & ADM & _ & IN) & _).
  destruct (history_mid _ _ _ _ _ _ _ _ H) as (A & ST & _ & STB).
  apply Forall_app in F as [_ F]. apply Forall_cons_iff in F as [F1 F].
  assert (EV : h_ev st = EvInterest i x).
  { destruct HD as [Q|(n & key & Q)]; [exact Q|]. rewrite Q in F1. destruct (F1 I). }
  rewrite EV in ST. pose proof (idkey_step _ _ _ _ _ _ _ _ _ ST) as K1. pose proof (idkey_stays _ _ _ _ _ _ _ STB F) as K2.
  exists st, i, x, (rq_type r), peer, (rq_cert r). split; [apply in_or_app; right; left; reflexivity|]. split; [exact HD|]. split; [exact (ad_params _ _ _ _ _ _ _ _ ADM)|].
  rewrite K2, K1. set (id' := id_for E (ca_idkey (h_pre st)) (c_name (rq_cert r))).
  assert (AD' : addressed g (verb_of (rq_type r)) (i_name x)) by (destruct RT as [Q|Q]; rewrite Q in AD |- *; exact AD).
  pose proof (admissible_id E g i (rq_type r) id id' x peer (rq_cert r) (laws_hash E L) ADM) as ADM'.
  destruct (pending ops (h_pre st) id') as [r'|] eqn:P'.
  - destruct (told_duplicate E g S ops (h_pre st) i (rq_type r) x peer (rq_cert r) r' A SANE RT AD' ADM' P') as (d & ST' & _). rewrite ST' in ST. injection ST as _ Q. rewrite <- Q in IN. destruct IN as [IN|[]]; discriminate IN.
  - destruct (new_accepted E g S ops (h_pre st) i (rq_type r) x peer (rq_cert r) A SANE RT AD' ADM' P') as (s2 & ST' & _). rewrite ST' in ST. injection ST as _ Q. rewrite <- Q in IN.
    destruct IN as [IN|[IN|[IN|[]]]]; try discriminate IN. exact (f_equal (fun e => match e with EAdd r => rq_id r | _ => [] end) IN).
Qed.
Lemma unseen_opens : forall E g S (ops : store_ops S) tr ca s0 ri rj i kn sk nb na, env_laws E -> config_fits g -> ca_history E g ops tr ca -> Forall (fun st => ~ restarts (h_ev st)) tr ->
  applies E g s0 ri i kn sk nb na -> length (ri_salt0 rj) = 32%nat -> ~ heard_of E (ca_idkey ca) (id_for E (ca_idkey ca) (c_name (cert_request E sk ri kn nb na))) tr ->
  exists ca' es s', opening E g ops ca s0 ri rj i kn sk nb na = Some (ca', es, s', p_challenges (cfp g)).
Proof.
  intros E g S ops tr ca s0 ri rj i kn sk nb na L CF H F AP L2 NH. apply (opens_iff E g S ops ca s0 ri rj i kn sk nb na L CF (history_at _ _ _ _ _ _ H) AP L2).
  destruct (pending ops ca _) as [r|] eqn:P; [|reflexivity]. destruct NH. apply (was_heard E g S ops tr ca _ L (proj1 CF) H F). rewrite P. discriminate.
Qed.
Lemma another_name : forall E g s ri i kn sk nb na s' ri' i' nb' na' x t x' t', env_laws E -> applies E g s ri i kn sk nb na -> applies E g s' ri' i' kn sk nb' na' ->
  ri_version ri < 2 ^ 64 -> ri_version ri' < 2 ^ 64 -> ri_version ri <> ri_version ri' -> asks_new E s ri kn sk nb na x t -> asks_new E s' ri' kn sk nb' na' x' t' ->
  exists peer c peer' c', carries E RT_NEW x peer c /\ carries E RT_NEW x' peer' c' /\ c_name c <> c_name c' /\ public_key c = public_key c'.
Proof.
  intros E g s ri i kn sk nb na s' ri' i' nb' na' x t x' t' [LA LE LH LS LC] AP AP' B B' N GN GN'.
  destruct (request_admissible E g s ri i kn sk nb na [] LC LE LH LS AP) as (y & identity & Q & _ & ADM & _). destruct (request_admissible E g s' ri' i' kn sk nb' na' [] LC LE LH LS AP') as (y' & identity' & Q' & _ & ADM' & _).
  unfold asks_new in GN, GN'. rewrite Q in GN. rewrite Q' in GN'. injection GN as <- _. injection GN' as <- _.
  eexists. eexists. eexists. eexists. split; [exact (ad_params _ _ _ _ _ _ _ _ ADM)|]. split; [exact (ad_params _ _ _ _ _ _ _ _ ADM')|]. split; [|reflexivity].
  intros NE. unfold cert_request in NE. cbn [c_name] in NE. apply app_inv_head in NE. apply N. assert (V : version_comp (ri_version ri) = version_comp (ri_version ri')) by congruence.
  apply (f_equal (fun v => nni_dec (t_val v))) in V. unfold version_comp in V. cbn [t_val] in V. rewrite !nni_dec_enc in V by assumption. congruence.
Qed.
