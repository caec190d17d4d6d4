(** Proofs about an honest requester whose CA changes its configuration.

    The middle part repeats lemmas of CaProps, OutcomeFacts and SessionFacts for CAs that have changed their configuration. *)
From Coq Require Import Lia.
From Verif Require Import RequesterFacts OutcomeFacts EmailFacts SessionFacts.
From Verif Require Export Spec_ReconfigSession ReconfigFacts.
Local Open Scope N_scope.

Definition r_at {S} (E : env) (g : ca_cfg) (ops : store_ops S) (s : ca_state S) : Prop := exists tr, reconfigured E ops tr g s.
Lemma r_at_k : forall E g S (ops : store_ops S) s, r_at E g ops s -> k_at E g ops s.
Proof. intros E g S ops s (tr & H). exact (reconfigured_k _ _ _ _ _ _ H). Qed.
Lemma csteps_app : forall S E (ops : store_ops S) g s tr g1 s1 tr2 g2 s2, csteps E ops g s tr g1 s1 -> csteps E ops g1 s1 tr2 g2 s2 -> csteps E ops g s (tr ++ tr2) g2 s2.
Proof.
  intros S E ops g s tr g1 s1 tr2 g2 s2 H K. induction H as [g s|g s ev es s1 tr g1 s3 ST _ IH|g g0 s key tr g1 s1 Q _ IH|g a s tr g1 s1 _ IH|g c sk kl s tr g1 s1 _ IH]; cbn [app].
  - exact K.
  - apply csteps_event; auto.
  - apply csteps_change; auto.
  - apply (csteps_file _ _ _ a); auto.
  - apply (csteps_key _ _ _ c sk kl); auto.
Qed.
Lemma r_at_csteps : forall S E (ops : store_ops S) g s tr g2 s2, r_at E g ops s -> csteps E ops g s tr g2 s2 -> r_at E g2 ops s2.
Proof.
  intros S E ops g s tr g2 s2 (tr0 & [LC NF B (g0 & key & H)]) K. exists (tr0 ++ tr). constructor; [exact LC|rewrite (csteps_prefix _ _ _ _ _ _ _ _ K); exact NF|exact B|].
  exists g0, key. exact (csteps_app _ _ _ _ _ _ _ _ _ _ _ H K).
Qed.
Lemma r_at_step : forall E g S (ops : store_ops S) s ev s' es, r_at E g ops s -> step E g ops s ev = Some (s', es) -> r_at E g ops s'.
Proof. intros E g S ops s ev s' es A ST. eapply r_at_csteps; [exact A|]. eapply csteps_event; [exact ST|constructor]. Qed.
Lemma r_at_inv : forall E g S (ops : store_ops S) s, r_at E g ops s -> exists inv nrm, store_laws E ops inv nrm /\ ca_inv_r g ops inv s.
Proof. intros E g S ops s A. exact (k_at_inv _ _ _ _ _ (r_at_k _ _ _ _ _ A)). Qed.
Lemma r_codec : forall S E g (ops : store_ops S) s, r_at E g ops s -> codec_laws E.
Proof. intros S E g ops s (tr & H). exact (rc_codec _ _ _ _ _ H). Qed.
Lemma r_prefix : forall S E g (ops : store_ops S) s, r_at E g ops s -> name_fits (p_prefix (cfp g)).
Proof. intros S E g ops s (tr & H). exact (rc_prefix _ _ _ _ _ H). Qed.
Arguments r_codec {S} E g ops s.
Arguments r_prefix {S} E g ops s.
Definition pending_good_s E g S (ops : store_ops S) s id r (A : r_at E g ops s) := pending_good_r E g S ops s id r (r_at_k _ _ _ _ _ A).
Definition pending_live_s E g S (ops : store_ops S) s id r (A : r_at E g ops s) := pending_live_r E g S ops s id r (r_at_k _ _ _ _ _ A).
Definition deleted_gone_s E g S (ops : store_ops S) s ev s' es id (A : r_at E g ops s) := deleted_gone_r E g S ops s ev s' es id (r_at_k _ _ _ _ _ A).

(** ** Invariants of pending requests *)
Lemma pending_inv_c : forall E (P : request -> Prop), (forall g i rt id peer c, P (created E g i rt id peer c)) ->
  (forall g nrm i x r r' es, nrm_ok nrm -> live r -> P r -> chal_step E g nrm i x r es (Some r') -> P r') ->
  forall S (ops : store_ops S) g s id r, r_at E g ops s -> pending ops s id = Some r -> P r.
Proof.
  intros E P PN PC S ops g s id r (tr & HI) H. revert g s id r HI H.
  induction tr as [|[g st] tr IH] using rev_ind; intros g' s id r HI H.
  - destruct (reconfigured_at _ _ _ _ _ _ HI) as (g0 & key & _ & ST & Z). rewrite (csteps_nil_inv _ _ _ _ _ _ _ _ ST eq_refl), Z in H. discriminate.
  - apply reconfigured_mid in HI as ((g0 & HI) & A & ST & A2 & SS). pose proof (csteps_nil_inv _ _ _ _ _ _ _ _ SS eq_refl) as ->. clear SS.
    destruct (at_id_step_r S E g ops _ _ _ _ A ST) as (nrm & NO & IDS). destruct (IDS id) as [m1 M Z]. rewrite H in Z.
    destruct Z as [Z|[_ Z]]; [|discriminate]. subst m1.
    remember (pending ops (h_pre st) id) as m0 eqn:P0. remember (Some r) as m2 eqn:P2.
    inversion M as [es0 m F NN|i0 x0 es0 info FI EV0 N0 C|i0 x0 rt idkey peer c tail EV0 RT ID0 ADM CT|i0 x0 r0 es0 m EV0 N0 IDR CS].
    + apply (IH g0 (h_pre st) id r HI). congruence.
    + congruence.
    + assert (r = created E g i0 rt id peer c) as -> by congruence. apply PN.
    + subst es0 m. rewrite P2 in CS. apply (PC g nrm i0 x0 r0 r (h_effs st) NO); [|apply (IH g0 (h_pre st) id r0 HI); congruence|exact CS].
      apply (pending_live_r E g S ops (h_pre st) id r0 A). congruence.
Qed.
Lemma counter_small_c : forall E g S (ops : store_ops S) s id r cs, r_at E g ops s -> pending ops s id = Some r -> rq_cs r = Some cs ->
  iv_counter (rq_eiv r) + 16 * cs_tries cs <= 64.
Proof.
  intros E g S ops s id r cs A P. revert cs.
  apply (pending_inv_c E (fun r => forall cs, rq_cs r = Some cs -> iv_counter (rq_eiv r) + 16 * cs_tries cs <= 64)) with (g := g) (ops := ops) (s := s) (id := id); [discriminate| |exact A|exact P].
  clear. intros g nrm i x r0 r' es NO LV IH CS cs C.
  inversion CS as [es1 F|info FI NS|code info tail SB PE C0|params ty dv cs1 em payload r3 tail SB OP K MV CE C0|params ty dv cs1 c0 PF RT IC|params ty dv cs1 c0 tail PF RT IC T|params ty dv cs1 tail PF RT T]; subst; auto.
  destruct (moved_reply E (cf_chal g) i x r0 params ty dv cs1 em payload r3 LV OP MV CE) as (nonce & iv2 & _ & _ & -> & I1 & I2 & _ & CT).
  destruct (nrm_cs nrm _ cs NO C) as (cs2 & C2 & _ & _ & TR & _). cbn in C2. injection C2 as <-. rewrite TR.
  destruct (nrm_fixed nrm (set_eiv iv2 (moved dv ty cs1 r0)) NO) as (_ & _ & _ & _ & _ & -> & _). cbn [set_eiv rq_eiv].
  destruct MV as [[ST SS]|(ST & _ & cs0 & C1 & (given & code & life & _ & _ & _ & _ & TT & ->))].
  - destruct (live_before r0 LV ST) as (_ & Q & _). rewrite Q in CT. rewrite initial_counter in CT by apply rnd_iv_len.
    assert (cs_tries cs1 <= 3) by (destruct SS; cbn [cs_tries]; lia). lia.
  - destruct (live_cs r0 LV ST) as (cs1 & Q & B). cbn [set_div rq_cs] in C1. pose proof (IH cs0 C1) as IH1. cbn [cs_tries].
    destruct LV as [(Z & _)|(_ & _ & _ & Z & _)]; [contradiction|]. rewrite (initial_ne _ _ Z) in CT. lia.
Qed.
Lemma new_validity_c : forall E g S (ops : store_ops S) s id r, r_at E g ops s -> pending ops s id = Some r -> rq_type r = RT_NEW -> exists v, c_validity (rq_cert r) = Some v.
Proof.
  intros E g S ops s id r (tr & H) P RT. destruct (has_origin_c S E ops tr g s id r H P) as (a1 & g0 & st & a2 & _ & (i & x & peer & _ & _ & ADM & _) & _).
  destruct (ad_cert _ _ _ _ _ _ _ _ ADM) as [(_ & (nb & na & V & _) & _)|(Q & _)]; [eauto|rewrite RT in Q; discriminate Q].
Qed.
Lemma step_of_c : forall E g S (ops : store_ops S) s i x es id r, r_at E g ops s -> on_interest E g ops s i x = (es, Ok tt) -> names_request g id x -> pending ops s id = Some r ->
  exists s' nrm m, step E g ops s (EvInterest i x) = Some (s', es) /\ nrm_ok nrm /\ chal_step E g nrm i x r es m /\ pending ops s' id = m.
Proof.
  intros E g S ops s i x es id r A OI N P. pose proof (ok_step E g S ops s i x es OI) as ST.
  destruct (pending_chal_step_r E g S ops _ _ _ _ i x id r (r_at_k _ _ _ _ _ A) ST eq_refl N P) as (nrm & m & NO & _ & _ & CS & Z).
  exists (apply_effs ops es s), nrm, m. split; [exact ST|]. split; [exact NO|]. split; [exact CS|]. destruct Z as [Z|[[] _]]. exact Z.
Qed.
(** A configuration that allows the name of a request at hand. *)
Definition wide (g : ca_cfg) : ca_cfg :=
  CaCfg (Config (Profile (p_prefix (cfp g)) (p_fwd (cfp g)) (p_info (cfp g)) (p_probe_keys (cfp g)) (p_maxvalid (cfp g)) None (p_challenges (cfp g)) (p_cert (cfp g))) (cf_redirect (cf g)) (cf_assign (cf g)))
    (cf_chal g) (cf_cert g) (cf_sk g) (cf_keyloc g).
Lemma under_wide : forall g n, under (p_prefix (cfp g)) n -> name_policy (wide g) n.
Proof. intros g n (a & b & c & d & Q & NE). exists a, b, c, d. split; [exact Q|]. split; [exact NE|]. intros k H. discriminate H. Qed.
Lemma under_identity : forall p n, under p n -> exists c, get_neg 1 (identity_of n) = Some c.
Proof.
  intros p n (suffix & kid & iss & ver & -> & NE). rewrite app_assoc. rewrite identity_of_shape.
  destruct (exists_last NE) as (s' & c & ->). exists c. rewrite app_assoc. exact (get_neg_app (p ++ s') [c] (Nat.lt_0_succ 0)).
Qed.
Lemma issued_facts_c : forall E g v r c, good_r (p_prefix (cfp g)) r -> issue_certificate E g v r = Ok c -> certifies E g (rq_cert r) c /\ under (p_prefix (cfp g)) (c_name c).
Proof.
  intros E g v r c (_ & _ & _ & U) H. destruct (issue_other E g (wide g) v r c (under_wide g _ U) H) as [A B]. split; [exact A|exact (policy_under (wide g) _ B)].
Qed.
Lemma issued_size_c : forall E g r c v, under (p_prefix (cfp g)) (c_name (rq_cert r)) -> issue_certificate E g v r = Ok c -> blen (name_wire (c_name (rq_cert r))) < 2 ^ 31 -> c_name c <> [] /\ blen (name_wire (c_name c)) < 2 ^ 32.
Proof. intros E g r c v U H B. exact (issued_size (E := E) (g := wide g) r c v (under_wide g _ U) H B). Qed.
Lemma issued_fits_c : forall E g v r c, good_r (p_prefix (cfp g)) r -> wf_cert (rq_cert r) -> issue_certificate E g v r = Ok c -> blen (name_wire (c_name c)) < 2 ^ 32 -> name_fits (c_name c).
Proof.
  intros E g v r c GD (W & _) IC B. destruct (issued_facts_c E g v r c GD IC) as [(kn & i0 & v0 & v1 & Q0 & Q1 & _) _]. rewrite Q0 in W. apply Forall_app in W as [W _].
  split; [|unfold fits; lia]. rewrite Q1. apply wf_name_app; [exact W|]. constructor; [wft; reflexivity|]. constructor; [wft; apply fits_nni|constructor].
Qed.

Lemma add_pending_c : forall E g S (ops : store_ops S) s i rt id x peer c, r_at E g ops s -> rt = RT_NEW \/ rt = RT_REVOKE -> carries E rt x peer c ->
  (match s_add ops (ca_store s) (created E g i rt id peer c) with Some _ => true | None => false end = true <-> pending ops s id = None).
Proof.
  intros E g S ops s i rt id x peer c A RT C. destruct (r_at_inv E g S ops s A) as (inv & nrm & SL & I & _).
  pose proof (created_storable E g i rt id x peer c (r_codec _ _ _ _ A) (r_prefix _ _ _ _ A) RT C) as ST. split.
  - intros H. unfold pending. destruct (s_get ops (ca_store s) id) eqn:G; [|reflexivity].
    rewrite (sl_dup E ops inv nrm SL (ca_store s) (created E g i rt id peer c) I) in H; [discriminate|]. cbn [created rq_id]. congruence.
  - intros H. destruct (sl_add E ops inv nrm SL (ca_store s) (created E g i rt id peer c) I ST H) as (st' & Q & _). rewrite Q. reflexivity.
Qed.
Lemma new_accepted_c : forall E g S (ops : store_ops S) s i rt x peer c, r_at E g ops s -> suffix_limit_sane g ->
  rt = RT_NEW \/ rt = RT_REVOKE -> addressed g (verb_of rt) (i_name x) ->
  let id := request_id_of E (ca_idkey s) (c_name c) in
  admissible E g i rt id x peer c -> pending ops s id = None ->
  exists s', step E g ops s (EvInterest i x) =
    Some (s', [EAdd (created E g i rt id peer c); EPut (new_reply E g i x id); ECallback (created E g i rt id peer c)]) /\
    pending ops s' id = Some (created E g i rt id peer c) /\ forall id', id' <> id -> pending ops s' id' = pending ops s id'.
Proof.
  intros E g S ops s i rt x peer c A SANE RT AD id ADM P.
  pose proof (on_interest_new E g S ops s i rt x RT AD) as OI.
  rewrite (on_new_accepts E g _ (ca_idkey s) i rt x peer c SANE ADM) in OI;
    [|apply (add_pending_c E g S ops s i rt id x peer c A RT (ad_params _ _ _ _ _ _ _ _ ADM)), P].
  fold id in OI. rewrite (ok_step E g S ops s i x _ OI). eexists. split; [reflexivity|].
  destruct (r_at_inv E g S ops s A) as (inv & nrm & SL & I & _). set (r := created E g i rt id peer c).
  pose proof (created_storable E g i rt id x peer c (r_codec _ _ _ _ A) (r_prefix _ _ _ _ A) RT (ad_params _ _ _ _ _ _ _ _ ADM)) as ST.
  destruct (sl_add E ops inv nrm SL (ca_store s) r I ST P) as (st' & Q & _ & GQ). cbn [apply_effs fold_left apply_eff]. rewrite Q. cbn [ca_store].
  unfold pending. cbn [ca_store]. rewrite (nrm_created E ops inv nrm SL r eq_refl) in GQ. split.
  - rewrite GQ. change (rq_id r) with id. rewrite bytes_eqb_refl. reflexivity.
  - intros id' N. rewrite GQ. change (rq_id r) with id. apply bytes_eqb_neq in N. rewrite N. reflexivity.
Qed.
Lemma chal_forward_c : forall E g S (ops : store_ops S) s i x id r params ty dv, r_at E g ops s -> names_request g id x -> pending ops s id = Some r ->
  signed_by E x (public_key (rq_cert r)) -> opened E x r params ty dv ->
  on_interest E g ops s i x = match handle_challenge E (cf_chal g) i ty params (set_div dv r) with
      | None => drop_error E g x [] (rq_id r) INVALID_PARAMETER (bs "Unrecognized challenge type.")
      | Some h => match h_out h with
          | Exn => (email_effs (h_email h), Exn) | UB => (email_effs (h_email h), UB) | Hang => (email_effs (h_email h), Hang)
          | Ok (code, info) => if negb (code =? NO_ERROR) then drop_error E g x (email_effs (h_email h)) (rq_id r) code info else after_challenge E g i x (email_effs (h_email h)) (h_req h)
          end end.
Proof.
  intros E g S ops s i x id r params ty dv A N P SB (pt & D & NE & PP & (t & GT & TV)). pose proof (names_addressed g x id N) as AD.
  rewrite (on_interest_at E g S ops _ s i x AD). cbn [handle]. unfold on_challenge. rewrite (proj2 (challenge_id_names g x id AD) N).
  change (s_get ops (ca_store s) id) with (pending ops s id). rewrite P. rewrite (proj2 (verify_interest_iff E x (rq_cert r)) SB). cbn [negb]. rewrite D.
  destruct pt as [|b pt]; [contradiction|]. rewrite PP, GT, TV. destruct (handle_challenge E (cf_chal g) i ty params (set_div dv r)) as [h|]; [|reflexivity].
  destruct (h_out h) as [[code info]| | |]; reflexivity.
Qed.
Lemma initial_small_c : forall E g S (ops : store_ops S) s id r i, r_at E g ops s -> pending ops s id = Some r -> iv_counter (initial_iv (rq_eiv r) (rnd_iv i)) <= 64.
Proof.
  intros E g S ops s id r i A P. destruct (pending_live_s E g S ops s id r A P) as [_ LV]. destruct LV as [(_ & _ & _ & Q & _)|(_ & _ & (cs & C & _) & Q & _)].
  - rewrite Q, initial_counter by apply rnd_iv_len. lia.
  - rewrite (initial_ne _ _ Q). pose proof (counter_small_c E g S ops s id r cs A P C). lia.
Qed.
Section LinkedC.
  Context {E : env} {g : ca_cfg} {S : Type} {ops : store_ops S} {rq : N}.
  Record linked_c (ctype : bytes) (id sk : bytes) (creq : cert) (ph : option (bytes * nat * Z)) (ca : ca_state S) (s : rstate) : Prop := {
    lc_at : r_at E g ops ca;
    lc_len : length id = 8%nat;
    lc_pk : public_key creq = o_pub E sk;
    lc_size : blen (name_wire (c_name creq)) < 2 ^ 31;
    lc_id : rs_id s = id;
    lc_keypair : exists kn, rs_keypair s = Some (kn, sk);
    lc_prefix : p_prefix (rs_profile s) = p_prefix (cfp g);
    lc_cert : exists c, p_cert (rs_profile s) = Some c /\ public_key c = o_pub E (cf_sk g);
    lc_req : exists r, pending ops ca id = Some r /\ rq_cert r = creq /\ rq_type r = rq /\ rq_key r = rs_key s /\
      rs_div s = rq_eiv r /\ streams ph ctype r s
  }.
End LinkedC.
Arguments linked_c E g {S} ops rq.

Lemma opening_linked_c : forall E g S (ops : store_ops S) ctype ca0 s0 ri rj i kn sk nb na, env_laws E -> config_fits g -> r_at E g ops ca0 -> applies E g s0 ri i kn sk nb na ->
  let creq := cert_request E sk ri kn nb na in let id := request_id_of E (ca_idkey ca0) (c_name creq) in
  pending ops ca0 id = None -> length (ri_salt0 rj) = 32%nat ->
  exists ca es s, opening E g ops ca0 s0 ri rj i kn sk nb na = Some (ca, es, s, p_challenges (cfp g)) /\ linked_c E g ops RT_NEW ctype id sk creq None ca s.
Proof.
  intros E g S ops ctype ca0 s0 ri rj i kn sk nb na L (SANE & FC & _) A AP creq id P L2.
  destruct L as [LA LE LH LS LC].
  destruct (request_admissible E g s0 ri i kn sk nb na id LC LE LH LS AP) as (x & identity & GN & AD & ADM & SZ). fold creq in ADM, SZ.
  destruct (new_accepted_c E g S ops ca0 i RT_NEW x _ creq A SANE (or_introl eq_refl) AD ADM P) as (ca' & ST & P' & _). fold id in ST, P'.
  destruct (ap_fresh _ _ _ _ _ _ _ _ _ AP) as (p & ecdh & id0 & FR & L0). destruct (ap_cert _ _ _ _ _ _ _ _ _ AP) as (cc & PC & PK).
  pose proof (new_answered E g i x id (upd_keypair (Some (kn, sk)) (upd_identity identity s0)) rj cc LE LH LS FC PC PK ltac:(rewrite FR; exact L0) L2 (request_id_len _ _ _ LH)) as NR.
  eexists. eexists. eexists. split.
  - unfold opening. rewrite GN, ST. cbn [puts flat_map app]. rewrite NR. reflexivity.
  - constructor.
    + exact (r_at_step _ _ _ _ _ _ _ _ A ST).
    + apply request_id_len, LH.
    + reflexivity.
    + exact SZ.
    + reflexivity.
    + exists kn. reflexivity.
    + exact (ap_prefix _ _ _ _ _ _ _ _ _ AP).
    + exists cc. auto.
    + exists (created E g i RT_NEW id (o_ecdh_pub E (rs_ecdh s0)) creq). split; [exact P'|]. subst s0. repeat split.
Qed.
Lemma move_step_c : forall E g S (ops : store_ops S) ca i x id r els ty dv cs em h, r_at E g ops ca -> names_request g id x -> pending ops ca id = Some r ->
  signed_by E x (public_key (rq_cert r)) -> opened E x r els ty dv -> moves E (cf_chal g) i els (set_div dv r) ty cs em ->
  handle_challenge E (cf_chal g) i ty els (set_div dv r) = Some h -> (exists info, h_out h = Ok (NO_ERROR, info)) -> h_req h = moved dv ty cs r -> h_email h = em ->
  exists ca' payload r3 nrm, step E g ops ca (EvInterest i x) = Some (ca', email_effs em ++ [EUpdate r3; EPut (reply_data E g (i_name x) payload); ECallback r3]) /\
    nrm_ok nrm /\ pending ops ca' id = Some (nrm r3) /\ chal_encode E (moved dv ty cs r) [] [] (rnd_iv i) = (Ok payload, r3).
Proof.
  intros E g S ops ca i x id r els ty dv cs em h A N P SB OP MV HC (info & HO) HR HE.
  destruct (pending_live_s E g S ops ca id r A P) as [ID LV].
  pose proof (chal_forward_c E g S ops ca i x id r els ty dv A N P SB OP) as FW. rewrite HC, HO, HR, HE in FW.
  change (negb (NO_ERROR =? NO_ERROR)) with false in FW. cbv iota in FW.
  unfold after_challenge in FW. change (rq_status (moved dv ty cs r) =? ST_PENDING) with false in FW. cbv iota in FW.
  destruct (moved_plain E (cf_chal g) i els r dv ty cs em MV) as (nonce & NN & PL).
  destruct (told_size i (moved dv ty cs r) cs nonce (moves_status _ _ _ _ _ _ _ _ MV) NN) as [_ SZ].
  pose proof (initial_small_c E g S ops ca id r i A P) as CI.
  destruct (chal_encode_fine E (moved dv ty cs r) [] [] (rnd_iv i) _ (live_eiv r LV) (rnd_iv_len i) PL ltac:(lia)) as (payload & r3 & CE).
  { change (rq_eiv (moved dv ty cs r)) with (rq_eiv r). lia. }
  rewrite CE in FW. unfold finish in FW. rewrite <- app_assoc in FW. cbn [app] in FW.
  destruct (step_of_c E g S ops ca i x _ id r A FW N P) as (s' & nrm & m & ST & NO & CS & Z).
  assert (Z' : pending ops s' id = Some (nrm r3)).
  { rewrite Z. apply (step_update nrm i x r _ m r3 CS). apply in_or_app. right. left. reflexivity. }
  exists s', payload, r3, nrm. split; [exact ST|]. auto.
Qed.
Lemma start_handled_c : forall E g i ctype life params code r, begins_with ctype params -> code_life ctype life -> gen_code (in_words i) = Ok code -> in_script_ok i = true ->
  rq_status r = ST_BEFORE -> under (p_prefix (cfp g)) (c_name (rq_cert r)) ->
  exists els ks, step_asks ctype ST_BEFORE [] ks /\ step_payload ctype ST_BEFORE [] params els /\ Forall wf_tlv els /\ els <> [] /\ blen (enc_tlvs els) < 2 ^ 31 /\ selects els ctype /\
    handle_challenge E (cf_chal g) i ctype els r = Some (ret_new ctype (in_t2 i) r (bs "need-code") [(bs "code", code)] 3 life (mail_of E g ctype params code r)) /\
    starts E (cf_chal g) i els r ctype (CState (bs "need-code") (in_t2 i) 3 life [(bs "code", code)]) (mail_of E g ctype params code r).
Proof.
  intros E g i ctype life params code r B CL G SK ST NP. destruct B as [|addr B].
  - assert (life = 3600%Z) as -> by exact (life_same _ _ _ CL life_pin).
    exists [Tlv T_SelectedChallenge (bs "pin")], []. split; [constructor|]. split; [constructor|]. split; [constructor; [wft; apply small_fits; vm_compute; reflexivity|constructor]|]. split; [discriminate|].
    split; [vm_compute; reflexivity|]. split; [eexists; split; reflexivity|]. split; [|apply start_pin; exact G].
    unfold handle_challenge. change (bytes_eqb (bs "pin") CH_PIN) with true. cbv iota. unfold handle_pin. rewrite ST, G. reflexivity.
  - assert (life = 300%Z) as -> by exact (life_same _ _ _ CL life_email).
    set (els := [Tlv T_SelectedChallenge (bs "email"); Tlv T_ParameterKey (bs "email"); Tlv T_ParameterValue addr]).
    exists els, [bs "email"]. split; [constructor|]. split; [constructor|].
    split; [constructor; [wft; apply small_fits; vm_compute; reflexivity|]; constructor; [wft; apply small_fits; vm_compute; reflexivity|]; constructor; [wft; apply small_fits; unfold small_payload; lia|constructor]|]. split; [discriminate|].
    split. { unfold els. cbn [enc_tlvs]. rewrite !blen_app. pose proof (enc_tlv_len (Tlv T_SelectedChallenge (bs "email"))) as L1. pose proof (enc_tlv_len (Tlv T_ParameterKey (bs "email"))) as L2.
      pose proof (enc_tlv_len (Tlv T_ParameterValue addr)) as L3. cbn [t_val] in *. change (blen (bs "email")) with 5 in *. change (blen []) with 0. lia. }
    split; [eexists; split; reflexivity|]. split; [|exact (start_email E (cf_chal g) i els r code (Tlv T_ParameterValue addr) G eq_refl)].
    destruct (under_identity _ _ NP) as (c & Q).
    unfold handle_challenge. change (bytes_eqb (bs "email") CH_PIN) with false. change (bytes_eqb (bs "email") CH_EMAIL) with true. cbv iota. unfold handle_email. rewrite ST. change (ST_BEFORE =? ST_BEFORE) with true. cbv iota.
    change (get T_ParameterValue els) with (Some (Tlv T_ParameterValue addr)). cbv iota. rewrite Q, G, SK. reflexivity.
Qed.
Lemma send_linked_c : forall E g S (ops : store_ops S) rq ctype id sk creq ph ca s ri params els ks r ty, aes_laws E -> sig_laws E -> linked_c E g ops rq ctype id sk creq ph ca s ->
  pending ops ca id = Some r -> rs_div s = rq_eiv r -> rq_key r = rs_key s -> streams ph ctype r s ->
  step_asks ctype (rs_status s) (rs_cstatus s) ks -> step_payload ctype (rs_status s) (rs_cstatus s) params els -> Forall wf_tlv els -> els <> [] -> blen (enc_tlvs els) < 2 ^ 31 -> selects els ty ->
  exists x m iv2, select_challenge s ctype = (Ok m, upd_ctype ctype s) /\ gen_challenge E (upd_ctype ctype s) ri params = (Ok x, upd_eiv iv2 (upd_ctype ctype s)) /\
    names_request g id x /\ signed_by E x (o_pub E sk) /\ opened E x r els ty iv2 /\ iv12 iv2 /\ ctr_part iv2 <= used (rs_eiv s) + 2 ^ 28 /\
    rand_part iv2 = match ph with None => be_enc 8 (ri_iv ri) | Some _ => rand_part (rs_eiv s) end.
Proof.
  intros E g S ops rq ctype id sk creq ph ca s ri params els ks r ty LA LS [A L PK SZ ID (kn & KP) PF (cc & PC & PK2) _] P DV K ST AK PY W NE B SE.
  destruct (pending_live_s E g S ops ca id r A P) as [IDR LV].
  apply asks_iff in AK as (m & SEL & _).
  assert (SM : small_payload (enc_tlvs els)) by (unfold small_payload; lia).
  assert (BL : blocks16 (enc_tlvs els) < 2 ^ 28) by (unfold blocks16; apply N.div_lt_upper_bound; lia).
  assert (IS : iv_sound (rs_eiv s) /\ used (rs_eiv s) <= 2 ^ 30).
  { unfold iv_sound, used. destruct ph as [[[code k] t]|]; cbn [streams] in ST.
    - destruct ST as (I & _ & _ & C & K2 & _). split; [auto|]. destruct (rs_eiv s) as [|b l]; [discriminate I|]. assert (N.of_nat (k + 1) <= 3) by lia. nia.
    - destruct ST as (-> & _). split; [auto|lia]. }
  destruct IS as [IS US].
  destruct (gen_challenge_eq E (upd_ctype ctype s) ri params els kn sk PY KP IS SM) as (iv2 & GC & U & I2 & RP & CP); [unfold has_room; cbn [upd_ctype rs_eiv]; lia|].
  cbn [upd_ctype rs_profile rs_id rs_key rs_eiv] in GC, U, RP, CP. rewrite ID, PF, <- K in GC.
  eexists. exists m, iv2. split; [exact SEL|]. split; [exact GC|].
  split. { unfold names_request, signed_interest. cbn [i_name]. exists T_Generic. eexists. rewrite <- app_assoc. split; [reflexivity|exact L]. }
  split; [apply signed_signed, LS|]. split.
  - pose proof (iv12_initial (rs_eiv s) (be_enc 8 (ri_iv ri)) IS (be_enc_length 8 _)) as I1. apply sent_opened; auto.
    + destruct ph as [[[code k] t]|]; cbn [streams] in ST.
      * destruct ST as (I & _ & RN & _ & _ & _ & _ & _ & cs & C & _). right. rewrite (initial_ne _ _ I). split; [|exact RN].
        destruct (live_eiv r LV) as [Z|Z]; [|exact Z]. destruct LV as [(_ & _ & Q & _)|(_ & _ & _ & Q & _)]; [congruence|exact Q].
      * destruct ST as (_ & Q & _). left. destruct LV as [(_ & _ & _ & Z & _)|(Z & _)]; [exact Z|rewrite Q in Z; discriminate].
    + destruct ph as [[[code k] t]|]; cbn [streams] in ST.
      * destruct ST as (I & D & _). right. rewrite D. symmetry. apply initial_ne, I.
      * destruct ST as (_ & Q & _). left. destruct LV as [(_ & _ & _ & _ & Z)|(Z & _)]; [exact Z|rewrite Q in Z; discriminate].
  - split; [exact I2|]. split; [lia|]. rewrite RP. destruct ph as [[[code k] t]|]; cbn [streams] in ST.
    + destruct ST as (I & _). rewrite (initial_ne _ _ I). reflexivity.
    + destruct ST as (-> & _). apply initial_prefix, be_enc_length.
Qed.
Lemma move_round_c : forall E g S (ops : store_ops S) rq ctype id sk creq ph ca s ri rj i params els m x iv2 r cs em h code k, aes_laws E -> sig_laws E ->
  linked_c E g ops rq ctype id sk creq ph ca s -> pending ops ca id = Some r -> rq_cert r = creq -> rq_type r = rq -> rs_div s = rq_eiv r -> rq_key r = rs_key s ->
  select_challenge s ctype = (Ok m, upd_ctype ctype s) -> gen_challenge E (upd_ctype ctype s) ri params = (Ok x, upd_eiv iv2 (upd_ctype ctype s)) ->
  names_request g id x -> signed_by E x (o_pub E sk) -> opened E x r els ctype iv2 -> iv12 iv2 -> ctr_part iv2 <= 2 ^ 28 * N.of_nat (k + 1) ->
  rand_part iv2 <> rand_part (initial_iv (rq_eiv r) (rnd_iv i)) -> (exists life, code_life ctype life) ->
  moves E (cf_chal g) i els (set_div iv2 r) ctype cs em -> handle_challenge E (cf_chal g) i ctype els (set_div iv2 r) = Some h -> (exists info, h_out h = Ok (NO_ERROR, info)) ->
  h_req h = moved iv2 ctype cs r -> h_email h = em -> (k <= 2)%nat -> wants_code cs -> cs_secrets cs = [(bs "code", code)] -> cs_tries cs = 3 - N.of_nat k -> cs_time cs = in_t2 i -> (0 <= in_t2 i)%Z ->
  (0 <= cs_rtime cs <= 3600)%Z -> clock_ok rj ->
  exists ca' s3 d r3, round E g ops ca s ri rj i ctype params = Some (ca', email_effs em ++ [EUpdate r3; EPut d; ECallback r3], s3) /\
    linked_c E g ops rq ctype id sk creq (Some (code, k, in_t2 i)) ca' s3 /\ rs_status s3 = ST_CHALLENGE /\ rs_cstatus s3 = cs_status cs /\ rs_tries s3 = Z.of_N (cs_tries cs) /\
    rs_fresh s3 = (ri_now rj + sec (cs_rtime cs))%Z /\ rq_cs r3 = Some cs.
Proof.
  intros E g S ops rq ctype id sk creq ph ca s ri rj i params els m x iv2 r cs em h code k LA LS LK P CR RT DV K SEL GC N SB OP I2 CT RN CL MV HC HO HR HE KK WC SE TR TM T0 RTI CK.
  destruct LK as [A L PK SZ ID (kn & KP) PF (cc & PC & PK2) _]. destruct (pending_live_s E g S ops ca id r A P) as [IDR LV].
  assert (SB' : signed_by E x (public_key (rq_cert r))) by (rewrite CR, PK; exact SB).
  destruct (move_step_c E g S ops ca i x id r els ctype iv2 cs em h A N P SB' OP MV HC HO HR HE) as (ca' & payload & r3 & nrm & ST & NO & P' & CE).
  assert (KT : known_type ctype) by (destruct CL as [life CL]; destruct CL; unfold known_type; auto).
  destruct (moved_live E g i x r els ctype iv2 cs em payload r3 LV OP KT MV CE) as (iv3 & R3 & I3 & _ & _ & LV3).
  destruct (moved_reply E (cf_chal g) i x r els ctype iv2 cs em payload r3 LV OP MV CE) as (_ & iv3' & _ & _ & R3' & _ & _ & PX & _).
  assert (iv3' = iv3) as -> by (pose proof (f_equal rq_eiv R3) as Q1; pose proof (f_equal rq_eiv R3') as Q2; cbn in Q1, Q2; congruence).
  assert (CO : forall c0, rq_cs (moved iv2 ctype cs r) = Some c0 -> cs_ok (ri_now rj) [] c0).
  { intros c0 Q. cbn in Q. injection Q as <-. unfold clock_ok in CK. unfold cs_ok, sec. split; [destruct WC as [-> | ->]; vm_compute; reflexivity|]. split; [lia|]. split; [lia|]. split; [lia|]. split; [lia|].
    intros Q. destruct WC as [Z|Z]; rewrite Z in Q; discriminate. }
  assert (NF : name_fits []) by (split; [constructor|unfold fits; vm_compute; reflexivity]).
  destruct (reply_read E g (i_name x) (moved iv2 ctype cs r) [] [] i rj [] payload r3 (upd_eiv iv2 (upd_ctype ctype s)) cc LA LS (live_eiv r LV) CO ltac:(vm_compute; discriminate) NF NF
    ltac:(vm_compute; reflexivity) ltac:(vm_compute; reflexivity) CE PC PK2 (eq_sym K) ltac:(cbn; congruence) DV I2 RN) as (s3 & RR & (T1 & T2 & _) & SS & DV3).
  cbn [rq_cs moved set_cs rq_status set_ctype set_status] in T1, T2. destruct T2 as (T2 & T3 & T4 & _).
  destruct SS as (S1 & S2 & S3 & S4 & S5 & S6 & S7 & S8 & S9). cbn in S1, S2, S3, S4, S5, S6, S7, S8, S9.
  exists ca', s3, (reply_data E g (i_name x) payload), r3. split.
  { unfold round. rewrite SEL, GC, ST. rewrite puts_app, puts_emails. cbn [app puts flat_map]. rewrite RR. reflexivity. }
  split; [|rewrite T1, T2, T3, T4, R3; auto]. constructor.
  - exact (r_at_step _ _ _ _ _ _ _ _ A ST).
  - exact L.
  - exact PK.
  - exact SZ.
  - congruence.
  - exists kn. congruence.
  - rewrite S1. exact PF.
  - rewrite S1. exists cc. auto.
  - exists (nrm r3). split; [exact P'|]. destruct (nrm_fixed nrm r3 NO) as (_ & N2 & N3 & N4 & _ & N6 & N7). rewrite N2, N3, N4, N6, DV3. subst r3. cbn [rq_cert rq_type rq_key set_eiv moved set_cs set_ctype set_status set_div rq_eiv].
    split; [exact CR|]. split; [exact RT|]. split; [congruence|]. split; [reflexivity|]. unfold streams. rewrite N6, N7, S8. cbn [rq_div rq_eiv set_eiv moved set_cs set_ctype set_status set_div].
    split; [exact I2|]. split; [reflexivity|]. split; [change (rand_part iv3) with (iv_prefix iv3); rewrite PX; exact RN|]. split; [exact CT|]. split; [exact KK|]. split; [exact T1|]. split; [exact S5|]. split; [exact T0|].
    destruct (NO (set_eiv iv3 (moved iv2 ctype cs r))) as [Q|Q]; rewrite Q.
    + exists cs. split; [reflexivity|]. split; [exact T2|]. auto 10.
    + eexists. split; [reflexivity|]. cbn [cs_status cs_secrets cs_tries cs_time]. split; [exact T2|]. split; [exact WC|]. split; [exact SE|]. split; [exact TR|]. right. rewrite TM. reflexivity.
Qed.
Lemma start_round_c : forall E g S (ops : store_ops S) rq ctype life id sk creq ca s ri rj i params code, aes_laws E -> sig_laws E -> code_life ctype life ->
  linked_c E g ops rq ctype id sk creq None ca s -> begins_with ctype params -> gen_code (in_words i) = Ok code -> in_script_ok i = true -> (0 <= in_t2 i)%Z ->
  be_enc 8 (ri_iv ri) <> rnd_iv i -> clock_ok rj ->
  exists ca' s' d r3 r, round E g ops ca s ri rj i ctype params = Some (ca', email_effs (mail_of E g ctype params code r) ++ [EUpdate r3; EPut d; ECallback r3], s') /\
    rq_cert r = creq /\ rq_prefix r = p_prefix (cfp g) /\
    linked_c E g ops rq ctype id sk creq (Some (code, 0%nat, in_t2 i)) ca' s' /\ rs_status s' = ST_CHALLENGE /\ rs_cstatus s' = bs "need-code" /\ rs_tries s' = 3%Z /\
    rs_fresh s' = (ri_now rj + sec life)%Z /\ (exists cs, rq_cs r3 = Some cs /\ sec_get (bs "code") (cs_secrets cs) = Some code).
Proof.
  intros E g S ops rq ctype life id sk creq ca s ri rj i params code LA LS CL LK B G SK T0 RN CK.
  destruct (lc_req _ _ _ _ _ _ _ LK) as (r & P & CR & RT & K & DV & STR). pose proof STR as STR'. destruct STR' as (EV & SR & SS & SC).
  pose proof (lc_at _ _ _ _ _ _ _ LK) as A. destruct (pending_good_s E g S ops ca id r A P) as (_ & _ & _ & RP & _ & NP). destruct (pending_live_s E g S ops ca id r A P) as [_ LV].
  destruct (start_handled_c E g i ctype life params code r B CL G SK SR NP) as (els & ks & AK & PY & W & NE & SZ & SE & _ & _).
  rewrite <- SS, <- SC in AK, PY.
  destruct (send_linked_c E g S ops rq ctype id sk creq None ca s ri params els ks r ctype LA LS LK P DV K STR AK PY W NE SZ SE) as (x & m & iv2 & SEL & GC & N & SB & OP & I2 & CT & RN2).
  destruct (start_handled_c E g i ctype life params code (set_div iv2 r) B CL G SK SR NP) as (els' & ks' & _ & PY' & _ & _ & _ & _ & HC & STT).
  assert (els' = els) as -> by (apply step_payload_iff in PY, PY'; rewrite SS, SC in PY; congruence).
  set (em := mail_of E g ctype params code (set_div iv2 r)) in *.
  set (cs := CState (bs "need-code") (in_t2 i) 3 life [(bs "code", code)]) in *.
  assert (EV0 : rq_eiv r = []) by (destruct LV as [(_ & _ & _ & Z & _)|(Z & _)]; [exact Z|rewrite SR in Z; discriminate]).
  destruct (move_round_c E g S ops rq ctype id sk creq None ca s ri rj i params els m x iv2 r cs em (ret_new ctype (in_t2 i) (set_div iv2 r) (bs "need-code") [(bs "code", code)] 3 life em) code 0 LA LS LK P CR RT DV K SEL GC N SB OP I2)
    as (ca' & s3 & d & r3 & RD & LK' & Q1 & Q2 & Q3 & Q4 & Q5); auto.
  - rewrite EV in CT. cbn [used] in CT. change (N.of_nat (0 + 1)) with 1. lia.
  - rewrite RN2, EV0. change (rand_part (initial_iv [] (rnd_iv i))) with (iv_prefix (initial_iv [] (rnd_iv i))). rewrite initial_prefix by apply rnd_iv_len. exact RN.
  - exists life. exact CL.
  - left. auto.
  - exists []. reflexivity.
  - unfold moved. destruct CL; reflexivity.
  - left. reflexivity.
  - destruct CL; cbn; lia.
  - exists ca', s3, d, r3, (set_div iv2 r). split; [exact RD|]. split; [exact CR|]. split; [exact RP|]. split; [exact LK'|]. split; [exact Q1|]. split; [exact Q2|]. split; [exact Q3|]. split; [exact Q4|]. exists cs. auto.
Qed.
Lemma wrong_round_c : forall E g S (ops : store_ops S) rq ctype life id sk creq code k t ca s ri rj i given, aes_laws E -> sig_laws E -> code_life ctype life ->
  linked_c E g ops rq ctype id sk creq (Some (code, k, t)) ca s -> given <> code -> blen given < 2 ^ 30 -> (t <= in_t1 i < t + sec life - 1000 /\ 0 <= in_t2 i)%Z -> clock_ok rj -> (k < 2)%nat ->
  exists ca' s' d r3, round E g ops ca s ri rj i ctype [(bs "code", given)] = Some (ca', [EUpdate r3; EPut d; ECallback r3], s') /\
    linked_c E g ops rq ctype id sk creq (Some (code, Datatypes.S k, in_t2 i)) ca' s' /\ rs_status s' = ST_CHALLENGE /\ rs_cstatus s' = bs "wrong-code" /\ rs_tries s' = (2 - Z.of_nat k)%Z /\
    (ri_now rj <= rs_fresh s' <= ri_now rj + sec life)%Z.
Proof.
  intros E g S ops rq ctype life id sk creq code k t ca s ri rj i given LA LS CL LK NE B (TB & T2) CK K2.
  destruct (lc_req _ _ _ _ _ _ _ LK) as (r & P & CR & RT & K & DV & STR). pose proof STR as STR'. destruct STR' as (I & D & RN & CT & KK & SS & SCT & T0 & cs & C & SC & WC & SE & TR & TM).
  pose proof (lc_at _ _ _ _ _ _ _ LK) as A. destruct (pending_live_s E g S ops ca id r A P) as [_ LV].
  assert (W : wants (rs_cstatus s)) by (rewrite SC; exact WC).
  destruct (code_payload ctype life (rs_cstatus s) given CL W B) as (AK & PY & WF & SZ & SEL0). rewrite <- SS in AK, PY.
  destruct (send_linked_c E g S ops rq ctype id sk creq _ ca s ri _ (code_els ctype given) _ r ctype LA LS LK P DV K STR AK PY WF ltac:(discriminate) SZ SEL0) as (x & m & iv2 & SEL & GC & N & SB & OP & I2 & CT2 & RN2).
  pose proof (in_time i t cs life T0 TM TB) as IT.
  assert (GU : guesses i (code_els ctype given) cs ctype given) by (exists life, (Tlv T_ParameterValue given); split; [exact CL|]; split; [exact WC|]; split; [reflexivity|]; split; [reflexivity|lia]).
  assert (SG : sec_get (bs "code") (cs_secrets cs) = Some code) by (rewrite SE; reflexivity).
  pose proof (live_cs_none r cs LV C) as STA.
  destruct (code_forward E (cf_chal g) i (code_els ctype given) (set_div iv2 r) cs ctype given code STA C GU SG) as (life' & msg & CL' & FM & HC).
  assert (life' = life) as -> by exact (life_same _ _ _ CL' CL).
  rewrite (proj2 (bytes_eqb_neq given code) NE) in HC. assert (T1 : 1 < cs_tries cs) by lia. apply N.ltb_lt in T1. rewrite T1 in HC. apply N.ltb_lt in T1.
  set (rt := Z.quot (sec life - (in_t1 i - cs_time cs)) (sec 1)) in *.
  assert (RTB : (0 <= rt <= life)%Z).
  { unfold rt, sec in *. rewrite Z.quot_div_nonneg by lia. split; [apply Z.div_pos; lia|]. apply Z.div_le_upper_bound; lia. }
  set (cs' := CState (bs "wrong-code") (in_t2 i) (cs_tries cs - 1) rt (cs_secrets cs)).
  destruct (move_round_c E g S ops rq ctype id sk creq _ ca s ri rj i _ (code_els ctype given) m x iv2 r cs' None (ret_new ctype (in_t2 i) (set_div iv2 r) (bs "wrong-code") (cs_secrets cs) (cs_tries cs - 1) rt None) code (Datatypes.S k) LA LS LK P CR RT DV K SEL GC N SB OP I2)
    as (ca' & s3 & d & r3 & RD & LK' & Q1 & Q2 & Q3 & Q4 & Q5); auto.
  - assert (used (rs_eiv s) = ctr_part (rs_eiv s)) as U by (unfold used; destruct (rs_eiv s); [discriminate I|reflexivity]). rewrite U in CT2.
    replace (N.of_nat (Datatypes.S k + 1)) with (N.of_nat (k + 1) + 1) by lia. lia.
  - rewrite RN2. assert (IE : iv12 (rq_eiv r)) by (destruct LV as [(_ & _ & Z & _)|(_ & _ & _ & Z & _)]; [congruence|exact Z]). rewrite (initial_ne _ _ IE). exact RN.
  - exists life. exact CL.
  - right. cbn [set_div rq_status rq_cs]. split; [rewrite STA; discriminate|]. split; [reflexivity|]. exists cs. split; [exact C|]. exists given, code, life. auto 10.
  - exists []. reflexivity.
  - unfold moved. destruct CL; reflexivity.
  - right. reflexivity.
  - cbn. lia.
  - cbn. destruct CL; lia.
  - exists ca', s3, d, r3. split; [exact RD|]. split; [exact LK'|]. split; [exact Q1|]. split; [exact Q2|]. split; [rewrite Q3; cbn; lia|]. rewrite Q4. cbn [cs_rtime cs']. unfold sec. lia.
Qed.
Lemma guess_sent_c : forall E g S (ops : store_ops S) rq ctype life id sk creq code k t ca s ri i given, aes_laws E -> sig_laws E -> code_life ctype life ->
  linked_c E g ops rq ctype id sk creq (Some (code, k, t)) ca s -> blen given < 2 ^ 30 -> (t <= in_t1 i < t + sec life - 1000)%Z ->
  exists r cs m x iv2 msg, pending ops ca id = Some r /\ rq_cert r = creq /\ rq_type r = rq /\ rq_key r = rs_key s /\ rs_div s = rq_eiv r /\ iv12 (rq_eiv r) /\ cs_tries cs = 3 - N.of_nat k /\
    select_challenge s ctype = (Ok m, upd_ctype ctype s) /\ gen_challenge E (upd_ctype ctype s) ri [(bs "code", given)] = (Ok x, upd_eiv iv2 (upd_ctype ctype s)) /\
    names_request g id x /\ signed_by E x (public_key (rq_cert r)) /\ opened E x r (code_els ctype given) ctype iv2 /\ iv12 iv2 /\ rand_part iv2 <> rand_part (rq_eiv r) /\ fits msg /\
    handle_challenge E (cf_chal g) i ctype (code_els ctype given) (set_div iv2 r) = Some
      (if bytes_eqb given code then ret_success ctype (set_div iv2 r) None
       else if 1 <? cs_tries cs then ret_new ctype (in_t2 i) (set_div iv2 r) (bs "wrong-code") (cs_secrets cs) (cs_tries cs - 1) (Z.quot (sec life - (in_t1 i - cs_time cs)) (sec 1)) None
       else ret_error (set_div iv2 r) OUT_OF_TRIES msg None).
Proof.
  intros E g S ops rq ctype life id sk creq code k t ca s ri i given LA LS CL LK B TB.
  destruct (lc_req _ _ _ _ _ _ _ LK) as (r & P & CR & RT & K & DV & STR). pose proof STR as STR'. destruct STR' as (I & D & RN & CT & KK & SS & SCT & T0 & cs & C & SC & WC & SE & TR & TM).
  pose proof (lc_at _ _ _ _ _ _ _ LK) as A. destruct (pending_live_s E g S ops ca id r A P) as [_ LV].
  assert (W : wants (rs_cstatus s)) by (rewrite SC; exact WC).
  destruct (code_payload ctype life (rs_cstatus s) given CL W B) as (AK & PY & WF & SZ & SEL0). rewrite <- SS in AK, PY.
  destruct (send_linked_c E g S ops rq ctype id sk creq _ ca s ri _ (code_els ctype given) _ r ctype LA LS LK P DV K STR AK PY WF ltac:(discriminate) SZ SEL0) as (x & m & iv2 & SEL & GC & N & SB & OP & I2 & CT2 & RN2).
  pose proof (in_time i t cs life T0 TM TB) as IT.
  assert (GU : guesses i (code_els ctype given) cs ctype given) by (exists life, (Tlv T_ParameterValue given); split; [exact CL|]; split; [exact WC|]; split; [reflexivity|]; split; [reflexivity|lia]).
  assert (SG : sec_get (bs "code") (cs_secrets cs) = Some code) by (rewrite SE; reflexivity).
  pose proof (live_cs_none r cs LV C) as STA.
  destruct (code_forward E (cf_chal g) i (code_els ctype given) (set_div iv2 r) cs ctype given code STA C GU SG) as (life' & msg & CL' & FM & HC).
  assert (life' = life) as -> by exact (life_same _ _ _ CL' CL).
  assert (IE : iv12 (rq_eiv r)) by (destruct LV as [(_ & _ & Z & _)|(_ & _ & _ & Z & _)]; [congruence|exact Z]).
  assert (SB' : signed_by E x (public_key (rq_cert r))) by (rewrite CR, (lc_pk _ _ _ _ _ _ _ LK); exact SB).
  assert (RN3 : rand_part iv2 <> rand_part (rq_eiv r)) by (rewrite RN2; exact RN).
  exists r, cs, m, x, iv2, msg. auto 20.
Qed.
Lemma third_round_c : forall E g S (ops : store_ops S) rq ctype life id sk creq code t ca s ri rj i given, aes_laws E -> sig_laws E -> code_life ctype life ->
  linked_c E g ops rq ctype id sk creq (Some (code, 2%nat, t)) ca s -> given <> code -> blen given < 2 ^ 30 -> (t <= in_t1 i < t + sec life - 1000)%Z ->
  round E g ops ca s ri rj i ctype [(bs "code", given)] = None.
Proof.
  intros E g S ops rq ctype life id sk creq code t ca s ri rj i given LA LS CL LK NE B TB.
  destruct (guess_sent_c E g S ops rq ctype life id sk creq code 2 t ca s ri i given LA LS CL LK B TB) as (r & cs & m & x & iv2 & msg & P & CR & RT & K & DV & IE & TR & SEL & GC & N & SB & OP & I2 & RN & FM & HC).
  pose proof (lc_at _ _ _ _ _ _ _ LK) as A. destruct (lc_cert _ _ _ _ _ _ _ LK) as (cc & PC & PK).
  pose proof (chal_forward_c E g S ops ca i x id r _ ctype iv2 A N P SB OP) as FW. rewrite HC in FW. rewrite (proj2 (bytes_eqb_neq given code) NE), TR in FW.
  change (1 <? 3 - N.of_nat 2) with false in FW. cbv iota in FW. cbn [ret_error h_out h_email email_effs] in FW. change (negb (OUT_OF_TRIES =? NO_ERROR)) with true in FW. cbv iota in FW.
  unfold drop_error in FW. cbn [app] in FW. pose proof (ok_step E g S ops ca i x _ FW) as ST. unfold round. rewrite SEL, GC, ST. cbn [puts flat_map app].
  match goal with |- context [on_challenge_response E ?s' rj ?d] => assert (Q : fst (on_challenge_response E s' rj d) = Exn) end.
  { unfold on_challenge_response. cbn [upd_eiv upd_ctype rs_profile].
    match goal with |- context [check_reply E ?p ?d] => assert (CKR : check_reply E p d = Exn) end.
    { apply (proj1 (check_bad E _ cc _ PC)). right. exists OUT_OF_TRIES. split; [discriminate|]. apply decoded_error; [|discriminate].
      destruct (error_data_reply E g x OUT_OF_TRIES msg) as (_ & _ & info & Q); [split; [discriminate|]; split; [discriminate|exact FM]|]. rewrite Q. reflexivity. }
    rewrite CKR. reflexivity. }
  destruct (on_challenge_response _ _ _ _) as [o s3]. cbn [fst] in Q. subst o. reflexivity.
Qed.
Lemma right_round_c : forall E g S (ops : store_ops S) ctype life id sk creq code k t ca s ri rj i, aes_laws E -> sig_laws E -> config_fits g -> code_life ctype life ->
  linked_c E g ops RT_NEW ctype id sk creq (Some (code, k, t)) ca s -> blen code < 2 ^ 30 -> (t <= in_t1 i < t + sec life - 1000)%Z -> clock_ok rj ->
  exists ca' s' c d r3, round E g ops ca s ri rj i ctype [(bs "code", code)] = Some (ca', [EIssue c; EDelete id; EPut d; ECallback r3], s') /\
    certifies E g creq c /\ public_key c = o_pub E sk /\ rs_status s' = ST_SUCCESS /\ rs_issued s' = c_name c /\ rs_fwd s' = p_fwd (cfp g) /\ pending ops ca' id = None.
Proof.
  intros E g S ops ctype life id sk creq code k t ca s ri rj i LA LS (_ & _ & FH & B2) CL LK B TB CK.
  destruct (guess_sent_c E g S ops RT_NEW ctype life id sk creq code k t ca s ri i code LA LS CL LK B TB) as (r & cs & m & x & iv2 & msg & P & CR & RT & K & DV & IE & TR & SEL & GC & N & SB & OP & I2 & RN & FM & HC).
  pose proof (lc_at _ _ _ _ _ _ _ LK) as A. destruct (lc_cert _ _ _ _ _ _ _ LK) as (cc & PC & PK). pose proof (lc_size _ _ _ _ _ _ _ LK) as B1. rewrite <- CR in B1.
  destruct (pending_live_s E g S ops ca id r A P) as [ID LV]. pose proof (pending_good_s E g S ops ca id r A P) as (_ & STO & GD).
  pose proof (chal_forward_c E g S ops ca i x id r _ ctype iv2 A N P SB OP) as FW. rewrite HC in FW. rewrite bytes_eqb_refl in FW.
  cbn [ret_success h_out h_email h_req email_effs] in FW. change (negb (NO_ERROR =? NO_ERROR)) with false in FW. cbv iota in FW.
  destruct (new_validity_c E g S ops ca id r A P RT) as (v & V).
  assert (IC : exists c, issue_certificate E g (in_version i) r = Ok c) by (unfold issue_certificate; rewrite V; eexists; reflexivity). destruct IC as (c & IC).
  destruct (issued_facts_c E g (in_version i) r c GD IC) as [CE NP]. destruct (issued_size_c E g r c (in_version i) (proj2 (proj2 (proj2 GD))) IC B1) as [NE B3].
  pose proof (issued_fits_c E g (in_version i) r c GD (proj1 (proj2 STO)) IC B3) as NF.
  set (r1 := set_cs None (set_ctype ctype (set_status ST_PENDING (set_div iv2 r)))) in *.
  unfold after_challenge in FW. change (rq_status r1 =? ST_PENDING) with true in FW. change (rq_type r1) with (rq_type r) in FW. rewrite RT in FW. change ((RT_NEW =? RT_NEW) || (RT_NEW =? RT_RENEW)) with true in FW. cbv iota in FW.
  change (issue_certificate E g (in_version i) r1) with (issue_certificate E g (in_version i) r) in FW. rewrite IC in FW.
  set (r2 := set_status ST_SUCCESS (set_cert c r1)) in *. change (rq_id r1) with (rq_id r) in FW.
  destruct (c_name c) as [|n0 n1] eqn:CN; [contradiction|]. rewrite <- CN in *.
  assert (PL : chal_plain r2 (c_name c) (p_fwd (cfp g)) = Ok [Tlv T_Status (nni_enc ST_SUCCESS); Tlv T_IssuedCertName (name_wire (c_name c)); Tlv T_ForwardingHint (name_wire (p_fwd (cfp g)))]).
  { unfold chal_plain. rewrite CN. reflexivity. }
  set (l := [Tlv T_Status (nni_enc ST_SUCCESS); Tlv T_IssuedCertName (name_wire (c_name c)); Tlv T_ForwardingHint (name_wire (p_fwd (cfp g)))]) in *.
  assert (SZ : blen (enc_tlvs l) < 2 ^ 35).
  { unfold l. cbn [enc_tlvs]. rewrite !blen_app. pose proof (enc_tlv_len (Tlv T_Status (nni_enc ST_SUCCESS))) as L1. pose proof (enc_tlv_len (Tlv T_IssuedCertName (name_wire (c_name c)))) as L2.
    pose proof (enc_tlv_len (Tlv T_ForwardingHint (name_wire (p_fwd (cfp g))))) as L3. cbn [t_val] in *. change (blen (nni_enc ST_SUCCESS)) with 1 in L1. change (blen []) with 0. lia. }
  pose proof (initial_small_c E g S ops ca id r i A P) as CI.
  destruct (chal_encode_fine E r2 (c_name c) (p_fwd (cfp g)) (rnd_iv i) l (live_eiv r LV) (rnd_iv_len i) PL SZ) as (payload & r3 & EN).
  { change (rq_eiv r2) with (rq_eiv r). lia. }
  rewrite EN in FW. unfold finish in FW. cbn [app] in FW. pose proof (ok_step E g S ops ca i x _ FW) as ST.
  destruct (reply_read E g (i_name x) r2 (c_name c) (p_fwd (cfp g)) i rj [] payload r3 (upd_eiv iv2 (upd_ctype ctype s)) cc LA LS (live_eiv r LV) (fun c0 Q => ltac:(discriminate))
    ltac:(vm_compute; discriminate) NF FH B3 B2 EN PC PK (eq_sym K)) as (s3 & RR & (T1 & _ & _ & T2) & _ & _).
  { pose proof (lc_id _ _ _ _ _ _ _ LK) as L. cbn. congruence. }
  { exact DV. }
  { exact I2. }
  { change (rq_eiv r2) with (rq_eiv r). rewrite (initial_ne _ _ IE). exact RN. }
  destruct (T2 NE) as [T3 T4].
  pose proof (deleted_gone_s E g S ops _ _ _ _ id A ST (or_intror (or_introl (f_equal EDelete ID)))) as GONE.
  eexists. exists s3, c, (reply_data E g (i_name x) payload), r3. split.
  { unfold round. rewrite SEL, GC, ST. cbn [puts flat_map app]. rewrite RR, <- ID. reflexivity. }
  rewrite CR in CE. split; [exact CE|]. split.
  { destruct CE as (_ & _ & _ & _ & _ & _ & Q & _). rewrite <- (lc_pk _ _ _ _ _ _ _ LK). unfold public_key. rewrite Q. reflexivity. }
  rewrite T1. auto.
Qed.

(** ** In between *)
Lemma quiet_step_c : forall E g S (ops : store_ops S) st id r, k_at E g ops (h_pre st) -> step E g ops (h_pre st) (h_ev st) = Some (h_post st, h_effs st) ->
  pending ops (h_pre st) id = Some r -> (forall i x, handles st i x -> names_request g id x -> ~ signed_by E x (public_key (rq_cert r))) ->
  (restarts (h_ev st) -> durable E S ops) -> pending ops (h_post st) id = Some r.
Proof.
  intros E g S ops st id r A ST P Q D. destruct (at_id_step_r S E g ops _ _ _ _ A ST) as (nrm & NO & IDS). destruct (IDS id) as [m1 M Z]. rewrite P in M.
  destruct (mid_untouched _ _ _ _ _ _ _ _ M) as [(i & x & H1 & H2 & H3)| ->]; [destruct (Q i x H1 H2 H3)|]. destruct Z as [Z|[Z1 Z]]; [exact Z|].
  assert (RS : restarts (h_ev st)) by (destruct (h_ev st); try destruct Z1; exact I). specialize (D RS). clear Z Z1 M IDS NO RS. destruct D.
  destruct (k_at_inv E g db (db_ops E) _ A) as (inv & nrm2 & SL & I). pose proof (k_codec _ _ _ _ A) as LC. pose proof (k_prefix _ _ _ _ A) as NF.
  destruct (h_ev st) as [i x|i x n key|key|i] eqn:EV; cbn [step] in ST.
  - destruct (on_interest E g (db_ops E) (h_pre st) i x) as [full o] eqn:O.
    assert (QQ : o <> UB /\ h_post st = apply_effs (db_ops E) full (h_pre st) /\ h_effs st = full) by (destruct o; try discriminate; (split; [discriminate|]); injection ST as <- <-; auto).
    destruct QQ as (NU & Q1 & Q2). destruct (interest_step_r E g (db_ops E) inv nrm2 SL LC NF _ (h_ev st) i x full full o I ltac:(rewrite EV; reflexivity) O NU (cut_refl _)) as [_ M].
    rewrite Q1. rewrite <- Q2 in M. rewrite <- Q2. specialize (M id). change (ca_get (db_ops E) (h_pre st) id) with (pending (db_ops E) (h_pre st) id) in M. rewrite P in M.
    destruct (mid_untouched _ _ _ _ _ _ _ _ M) as [(i1 & x1 & H1 & H2 & H3)|U]; [destruct (Q i1 x1 H1 H2 H3)|exact U].
  - destruct (on_interest E g (db_ops E) (h_pre st) i x) as [full o] eqn:O.
    assert (QQ : o <> UB /\ h_post st = restart (db_ops E) key (apply_effs (db_ops E) (firstn n full) (h_pre st)) /\ h_effs st = firstn n full) by (destruct o; try discriminate; (split; [discriminate|]); injection ST as <- <-; auto).
    destruct QQ as (NU & Q1 & Q2). assert (C : cut (firstn n full) full) by (exists (skipn n full); symmetry; apply firstn_skipn).
    destruct (interest_step_r E g (db_ops E) inv nrm2 SL LC NF _ (h_ev st) i x _ full o I ltac:(rewrite EV; reflexivity) O NU C) as [_ M].
    rewrite Q1. rewrite <- Q2 in M. rewrite <- Q2. specialize (M id). change (ca_get (db_ops E) (h_pre st) id) with (pending (db_ops E) (h_pre st) id) in M. rewrite P in M.
    destruct (mid_untouched _ _ _ _ _ _ _ _ M) as [(i1 & x1 & H1 & H2 & H3)|U]; [destruct (Q i1 x1 H1 H2 H3)|exact U].
  - injection ST as <- _. exact P.
  - rewrite <- P. destruct (on_get_profile E g (ca_prof (h_pre st)) i) as [es0 o] eqn:O. unfold on_get_profile in O.
    destruct (profile_data E g (ca_prof (h_pre st)) (in_version i)) as [d| | |]; injection O as <- <-; try discriminate; injection ST as <- _;
      destruct (ca_prof (h_pre st)); reflexivity.
Qed.
Lemma quiet_csteps : forall E S (ops : store_ops S) id r g s tr g2 s2, csteps E ops g s tr g2 s2 -> k_at E g ops s -> pending ops s id = Some r ->
  Forall (fun e => (forall i x, handles (snd e) i x -> names_request (fst e) id x -> ~ signed_by E x (public_key (rq_cert r))) /\
                   (restarts (h_ev (snd e)) -> durable E S ops)) tr -> pending ops s2 id = Some r.
Proof.
  intros E S ops id r g s tr g2 s2 H. induction H as [g s|g s ev es s1 tr g2 s2 ST _ IH|g g1 s key tr g2 s2 Q _ IH|g a s tr g2 s2 _ IH|g c sk kl s tr g2 s2 _ IH]; intros A P F.
  - exact P.
  - apply Forall_cons_iff in F as [[F1 F2] F3]. apply IH; [exact (k_at_step _ _ _ _ _ _ _ _ A ST)| |exact F3]. exact (quiet_step_c E g S ops (HStep s ev es s1) id r A ST P F1 F2).
  - apply Forall_cons_iff in F as [[F1 F2] F3]. pose proof (k_at_other E g g1 S ops s Q A) as A1.
    apply IH; [exact (k_at_step E g1 S ops s (EvRestart key) _ [] A1 eq_refl)| |exact F3]. exact (quiet_step_c E g1 S ops (HStep s (EvRestart key) [] (restart ops key s)) id r A1 eq_refl P F1 F2).
  - apply IH; [exact (k_at_other E g (with_anchors a g) S ops s eq_refl A)|exact P|exact F].
  - apply IH; [exact (k_at_other E g (with_key c sk kl g) S ops s eq_refl A)|exact P|exact F].
Qed.
Lemma quiet_linked_c : forall E S (ops : store_ops S) rq ctype id sk creq ph g ca s g' ca', linked_c E g ops rq ctype id sk creq ph ca s -> quiet_change E ops id (o_pub E sk) g ca g' ca' ->
  o_pub E (cf_sk g') = o_pub E (cf_sk g) -> linked_c E g' ops rq ctype id sk creq ph ca' s.
Proof.
  intros E S ops rq ctype id sk creq ph g ca s g' ca' [A L PK SZ ID KP PF CC (r & P & CR & R)] (tr & ST & F) SK.
  rewrite <- PK, <- CR in F. pose proof (quiet_csteps E S ops id r g ca tr g' ca' ST (r_at_k _ _ _ _ _ A) P F) as P'.
  constructor; auto; [exact (r_at_csteps _ _ _ _ _ _ _ _ A ST)|rewrite (csteps_prefix _ _ _ _ _ _ _ _ ST); exact PF|rewrite SK; exact CC|]. exists r. auto.
Qed.
Lemma session_linked_c : forall E S (ops : store_ops S) ctype life id sk creq ph g ca s, env_laws E -> (ph <> None -> code_life ctype life) ->
  session_change E ops ctype life id sk creq ph g ca s -> linked_c E g ops RT_NEW ctype id sk creq ph ca s /\ phase_code ph.
Proof.
  intros E S ops ctype life id sk creq ph g ca s L CL SE. induction SE as
    [tr g ca0 s0 ri rj i kn nb na ca es s chals A CF AP -> -> P L2 OP|ph g ca s g' ca' SE IH Q SK|g ca s ri rj i params code ca' es s' SE IH B G SK T0 RN CK RD|code k t g ca s ri rj i given ca' es s' SE IH NE B TB CK RD].
  - destruct (opening_linked_c E g S ops ctype ca0 s0 ri rj i kn sk nb na L CF (ex_intro _ tr A) AP P L2) as (ca1 & es1 & s1 & OP1 & LK). rewrite OP1 in OP. injection OP as <- <- <- <-. split; [exact LK|exact I].
  - destruct (IH CL) as [LK PC]. split; [eapply quiet_linked_c; eassumption|exact PC].
  - destruct (IH ltac:(congruence)) as [LK _]. destruct L as [LA LE LH LS LC].
    destruct (start_round_c E g S ops RT_NEW ctype life id sk creq ca s ri rj i params code LA LS (CL ltac:(discriminate)) LK B G SK T0 RN CK) as (ca1 & s1 & d & r3 & r & RD1 & _ & _ & LK1 & _).
    rewrite RD1 in RD. injection RD as <- _ <-. split; [exact LK1|exact (code_small _ _ G)].
  - specialize (CL ltac:(discriminate)). destruct (IH (fun _ => CL)) as [LK PC]. destruct L as [LA LE LH LS LC].
    assert (KK : (k <= 2)%nat). { destruct (lc_req _ _ _ _ _ _ _ LK) as (r & _ & _ & _ & _ & _ & _ & _ & _ & _ & Q & _). exact Q. }
    assert (k = 2%nat \/ (k < 2)%nat) as [-> |K2] by lia.
    + rewrite (third_round_c E g S ops RT_NEW ctype life id sk creq code t ca s ri rj i given LA LS CL LK NE B ltac:(tauto)) in RD. discriminate.
    + destruct (wrong_round_c E g S ops RT_NEW ctype life id sk creq code k t ca s ri rj i given LA LS CL LK NE B TB CK K2) as (ca1 & s1 & d & r3 & RD1 & LK1 & _). rewrite RD1 in RD. injection RD as <- _ <-. auto.
Qed.

(** ** The statements *)
Lemma open_change : forall E S (ops : store_ops S) ctype life tr g ca0 s0 ri rj i kn sk nb na, env_laws E -> config_fits g -> reconfigured E ops tr g ca0 -> applies E g s0 ri i kn sk nb na ->
  let creq := cert_request E sk ri kn nb na in let id := id_for E (ca_idkey ca0) (c_name creq) in
  pending ops ca0 id = None -> length (ri_salt0 rj) = 32%nat ->
  exists ca es s, opening E g ops ca0 s0 ri rj i kn sk nb na = Some (ca, es, s, p_challenges (cfp g)) /\ session_change E ops ctype life id sk creq None g ca s.
Proof.
  intros E S ops ctype life tr g ca0 s0 ri rj i kn sk nb na L CF A AP creq id P L2.
  destruct (opening_linked_c E g S ops ctype ca0 s0 ri rj i kn sk nb na L CF (ex_intro _ tr A) AP P L2) as (ca & es & s & OP & _). exists ca, es, s. split; [exact OP|]. eapply sc_open; eauto.
Qed.
Lemma start_change : forall E S (ops : store_ops S) ctype life id sk creq g ca s ri rj i params code, env_laws E -> code_life ctype life ->
  session_change E ops ctype life id sk creq None g ca s -> begins_with ctype params -> gen_code (in_words i) = Ok code -> in_script_ok i = true -> (0 <= in_t2 i)%Z ->
  be_enc 8 (ri_iv ri) <> rnd_iv i -> clock_ok rj ->
  exists ca' s' d r es, round E g ops ca s ri rj i ctype params = Some (ca', es ++ [EUpdate r; EPut d; ECallback r], s') /\
    (exists cs, rq_cs r = Some cs /\ sec_get (bs "code") (cs_secrets cs) = Some code) /\
    session_change E ops ctype life id sk creq (Some (code, 0%nat, in_t2 i)) g ca' s' /\
    rs_status s' = ST_CHALLENGE /\ rs_cstatus s' = bs "need-code" /\ rs_tries s' = 3%Z /\ rs_fresh s' = (ri_now rj + sec life)%Z.
Proof.
  intros E S ops ctype life id sk creq g ca s ri rj i params code L CL SE B G SK T0 RN CK. pose proof L as [LA LE LH LS LC].
  destruct (session_linked_c E S ops ctype life id sk creq None g ca s L (fun _ => CL) SE) as [LK _].
  destruct (start_round_c E g S ops RT_NEW ctype life id sk creq ca s ri rj i params code LA LS CL LK B G SK T0 RN CK) as (ca1 & s1 & d & r3 & r & RD & Q1 & Q2 & _ & Q3 & Q4 & Q5 & Q6 & Q7).
  exists ca1, s1, d, r3, (email_effs (mail_of E g ctype params code r)). split; [exact RD|]. split; [assumption|]. split; [eapply sc_start; eassumption|auto].
Qed.
Lemma wrong_change : forall E S (ops : store_ops S) ctype life id sk creq code k t g ca s ri rj i given, env_laws E -> code_life ctype life ->
  session_change E ops ctype life id sk creq (Some (code, k, t)) g ca s -> given <> code -> blen given < 2 ^ 30 -> (t <= in_t1 i < t + sec life - 1000 /\ 0 <= in_t2 i)%Z -> clock_ok rj -> (k < 2)%nat ->
  exists ca' s' d r, round E g ops ca s ri rj i ctype [(bs "code", given)] = Some (ca', [EUpdate r; EPut d; ECallback r], s') /\
    session_change E ops ctype life id sk creq (Some (code, Datatypes.S k, in_t2 i)) g ca' s' /\
    rs_status s' = ST_CHALLENGE /\ rs_cstatus s' = bs "wrong-code" /\ rs_tries s' = (2 - Z.of_nat k)%Z /\
    (ri_now rj <= rs_fresh s' <= ri_now rj + sec life)%Z.
Proof.
  intros E S ops ctype life id sk creq code k t g ca s ri rj i given L CL SE NE B TB CK K2. pose proof L as [LA LE LH LS LC].
  destruct (session_linked_c E S ops ctype life id sk creq _ g ca s L (fun _ => CL) SE) as [LK _].
  destruct (wrong_round_c E g S ops RT_NEW ctype life id sk creq code k t ca s ri rj i given LA LS CL LK NE B TB CK K2) as (ca1 & s1 & d & r3 & RD & _ & Q).
  exists ca1, s1, d, r3. split; [exact RD|]. split; [eapply sc_wrong; eassumption|exact Q].
Qed.
Lemma right_change : forall E S (ops : store_ops S) ctype life id sk creq code k t g ca s ri rj i, env_laws E -> config_fits g -> code_life ctype life ->
  session_change E ops ctype life id sk creq (Some (code, k, t)) g ca s -> (t <= in_t1 i < t + sec life - 1000)%Z -> clock_ok rj ->
  exists ca' s' c d r, round E g ops ca s ri rj i ctype [(bs "code", code)] = Some (ca', [EIssue c; EDelete id; EPut d; ECallback r], s') /\
    certifies E g creq c /\ public_key c = o_pub E sk /\ rs_status s' = ST_SUCCESS /\ rs_issued s' = c_name c /\ rs_fwd s' = p_fwd (cfp g) /\ pending ops ca' id = None.
Proof.
  intros E S ops ctype life id sk creq code k t g ca s ri rj i L CF CL SE TB CK. pose proof L as [LA LE LH LS LC].
  destruct (session_linked_c E S ops ctype life id sk creq _ g ca s L (fun _ => CL) SE) as [LK PC].
  exact (right_round_c E g S ops ctype life id sk creq code k t ca s ri rj i LA LS CF CL LK PC TB CK).
Qed.
Lemma tries_change : forall E S (ops : store_ops S) ctype life id sk creq code k t g ca s, env_laws E -> code_life ctype life ->
  session_change E ops ctype life id sk creq (Some (code, k, t)) g ca s -> (k <= 2)%nat.
Proof.
  intros E S ops ctype life id sk creq code k t g ca s L CL SE. destruct (session_linked_c E S ops ctype life id sk creq _ g ca s L (fun _ => CL) SE) as [LK _].
  destruct (lc_req _ _ _ _ _ _ _ LK) as (r & _ & _ & _ & _ & _ & _ & _ & _ & _ & Q & _). exact Q.
Qed.

(** ** Another key *)
Definition swap_profile (p : profile) (s : rstate) : rstate :=
  RState p (rs_type s) (rs_identity s) (rs_id s) (rs_status s) (rs_ctype s) (rs_cstatus s) (rs_tries s) (rs_fresh s) (rs_issued s) (rs_fwd s) (rs_ecdh s) (rs_key s) (rs_eiv s) (rs_div s) (rs_nonce s) (rs_keypair s).
Lemma swap_select : forall p s ctype m s1, select_challenge (swap_profile p s) ctype = (Ok m, s1) -> select_challenge s ctype = (Ok m, upd_ctype ctype s).
Proof. intros p s ctype m s1 H. unfold select_challenge in *. cbn [swap_profile rs_status rs_cstatus] in H. destruct (requested_params ctype (rs_status s) (rs_cstatus s)) as [r|]; [|discriminate]. injection H as -> _. reflexivity. Qed.
Lemma swap_gen : forall E p s ctype ri params x s1, p_prefix p = p_prefix (rs_profile s) -> gen_challenge E (upd_ctype ctype (swap_profile p s)) ri params = (Ok x, s1) ->
  exists s2, gen_challenge E (upd_ctype ctype s) ri params = (Ok x, s2) /\ rs_profile s2 = rs_profile s.
Proof.
  intros E p s ctype ri params x s1 Q H. unfold gen_challenge in *. cbn [upd_ctype swap_profile rs_profile rs_type rs_identity rs_id rs_status rs_ctype rs_cstatus rs_key rs_eiv rs_keypair] in *.
  destruct ctype as [|b t]; [discriminate|]. destruct (gen_challenge_tlv _ _ _ _) as [[els| | |]|]; try discriminate. destruct (encode_aes _ _ _ _ _ _) as [[params'| | |] iv]; try discriminate.
  destruct (rs_keypair s) as [[kn sk]|]; [|discriminate]. injection H as <- _. rewrite Q. eexists. split; [reflexivity|reflexivity].
Qed.
Lemma key_change : forall E S (ops : store_ops S) ctype life id sk creq code k t g ca s g' ca' ri i, env_laws E -> config_fits g' -> code_life ctype life ->
  session_change E ops ctype life id sk creq (Some (code, k, t)) g ca s -> quiet_change E ops id (o_pub E sk) g ca g' ca' ->
  (forall m, o_verify E (o_pub E (cf_sk g)) m (o_sign E (cf_sk g') m) = false) -> (t <= in_t1 i < t + sec life - 1000)%Z ->
  exists x s' ca2 c d r, (exists m s1, select_challenge s ctype = (Ok m, s1) /\ gen_challenge E s1 ri [(bs "code", code)] = (Ok x, s')) /\
    step E g' ops ca' (EvInterest i x) = Some (ca2, [EIssue c; EDelete id; EPut d; ECallback r]) /\ certifies E g' creq c /\ public_key c = o_pub E sk /\
    pending ops ca2 id = None /\ forall rj, fst (on_challenge_response E s' rj d) = Exn.
Proof.
  intros E S ops ctype life id sk creq code k t g ca s g' ca' ri i L (_ & _ & FH & B2) CL SE QC NV TB. pose proof L as [LA LE LH LS LC].
  destruct (session_linked_c E S ops ctype life id sk creq _ g ca s L (fun _ => CL) SE) as [LK0 B]. cbn [phase_code] in B.
  destruct LK0 as [A0 LN PK0 SZ0 ID0 KP PF (cc & PC & PK) (r0 & P0 & CR0 & RQ0)]. destruct QC as (tr & ST0 & F). rewrite <- PK0, <- CR0 in F.
  pose proof (quiet_csteps E S ops id r0 g ca tr g' ca' ST0 (r_at_k _ _ _ _ _ A0) P0 F) as P0'.
  set (nc := Cert [] true (Some (o_pub E (cf_sk g'))) None None [] []).
  set (p := Profile (p_prefix (rs_profile s)) [] [] [] 0%Z None [] (Some nc)).
  assert (LK : linked_c E g' ops RT_NEW ctype id sk creq (Some (code, k, t)) ca' (swap_profile p s)).
  { constructor; auto; [exact (r_at_csteps _ _ _ _ _ _ _ _ A0 ST0)|cbn [swap_profile rs_profile p p_prefix]; rewrite (csteps_prefix _ _ _ _ _ _ _ _ ST0); exact PF|exists nc; split; reflexivity|].
    exists r0. split; [exact P0'|]. split; [exact CR0|]. exact RQ0. }
  clear ST0 F P0 P0' CR0 RQ0 A0 r0.
  destruct (guess_sent_c E g' S ops RT_NEW ctype life id sk creq code k t ca' _ ri i code LA LS CL LK B TB) as (r & cs & m & x & iv2 & msg & P & CR & RT & K & DV & IE & TR & SEL & GC & N & SB & OP & I2 & RN & FM & HC).
  pose proof (lc_at _ _ _ _ _ _ _ LK) as A. pose proof SZ0 as B1. rewrite <- CR in B1.
  destruct (pending_live_s E g' S ops ca' id r A P) as [ID LV]. pose proof (pending_good_s E g' S ops ca' id r A P) as (_ & STO & GD).
  pose proof (chal_forward_c E g' S ops ca' i x id r _ ctype iv2 A N P SB OP) as FW. rewrite HC in FW. rewrite bytes_eqb_refl in FW.
  cbn [ret_success h_out h_email h_req email_effs] in FW. change (negb (NO_ERROR =? NO_ERROR)) with false in FW. cbv iota in FW.
  destruct (new_validity_c E g' S ops ca' id r A P RT) as (v & V).
  assert (IC : exists c, issue_certificate E g' (in_version i) r = Ok c) by (unfold issue_certificate; rewrite V; eexists; reflexivity). destruct IC as (c & IC).
  destruct (issued_facts_c E g' (in_version i) r c GD IC) as [CE NP]. destruct (issued_size_c E g' r c (in_version i) (proj2 (proj2 (proj2 GD))) IC B1) as [NE B3].
  set (r1 := set_cs None (set_ctype ctype (set_status ST_PENDING (set_div iv2 r)))) in *.
  unfold after_challenge in FW. change (rq_status r1 =? ST_PENDING) with true in FW. change (rq_type r1) with (rq_type r) in FW. rewrite RT in FW. change ((RT_NEW =? RT_NEW) || (RT_NEW =? RT_RENEW)) with true in FW. cbv iota in FW.
  change (issue_certificate E g' (in_version i) r1) with (issue_certificate E g' (in_version i) r) in FW. rewrite IC in FW.
  set (r2 := set_status ST_SUCCESS (set_cert c r1)) in *. change (rq_id r1) with (rq_id r) in FW.
  destruct (c_name c) as [|n0 n1] eqn:CN; [contradiction|]. rewrite <- CN in *.
  assert (PL : chal_plain r2 (c_name c) (p_fwd (cfp g')) = Ok [Tlv T_Status (nni_enc ST_SUCCESS); Tlv T_IssuedCertName (name_wire (c_name c)); Tlv T_ForwardingHint (name_wire (p_fwd (cfp g')))]).
  { unfold chal_plain. rewrite CN. reflexivity. }
  set (l := [Tlv T_Status (nni_enc ST_SUCCESS); Tlv T_IssuedCertName (name_wire (c_name c)); Tlv T_ForwardingHint (name_wire (p_fwd (cfp g')))]) in *.
  assert (SZ : blen (enc_tlvs l) < 2 ^ 35).
  { unfold l. cbn [enc_tlvs]. rewrite !blen_app. pose proof (enc_tlv_len (Tlv T_Status (nni_enc ST_SUCCESS))) as L1. pose proof (enc_tlv_len (Tlv T_IssuedCertName (name_wire (c_name c)))) as L2.
    pose proof (enc_tlv_len (Tlv T_ForwardingHint (name_wire (p_fwd (cfp g'))))) as L3. cbn [t_val] in *. change (blen (nni_enc ST_SUCCESS)) with 1 in L1. change (blen []) with 0. lia. }
  pose proof (initial_small_c E g' S ops ca' id r i A P) as CI.
  destruct (chal_encode_fine E r2 (c_name c) (p_fwd (cfp g')) (rnd_iv i) l (live_eiv r LV) (rnd_iv_len i) PL SZ) as (payload & r3 & EN).
  { change (rq_eiv r2) with (rq_eiv r). lia. }
  rewrite EN in FW. unfold finish in FW. cbn [app] in FW. pose proof (ok_step E g' S ops ca' i x _ FW) as ST.
  pose proof (deleted_gone_s E g' S ops _ _ _ _ id A ST (or_intror (or_introl (f_equal EDelete ID)))) as GONE.
  destruct (swap_gen E p s ctype ri _ x _ eq_refl GC) as (s' & GC' & PR).
  exists x, s'. eexists. exists c, (reply_data E g' (i_name x) payload), r3. split; [exists m, (upd_ctype ctype s); split; [exact (swap_select _ _ _ _ _ SEL)|exact GC']|].
  split; [rewrite <- ID at 1; exact ST|]. rewrite CR in CE. split; [exact CE|]. split.
  { destruct CE as (_ & _ & _ & _ & _ & _ & Q & _). rewrite <- PK0. unfold public_key. rewrite Q. reflexivity. }
  split; [exact GONE|]. intros rj. unfold on_challenge_response, check_reply. rewrite PR, PC. unfold verify_data. rewrite PK.
  change (d_sig (reply_data E g' (i_name x) payload)) with (o_sign E (cf_sk g') (data_msg (reply_data E g' (i_name x) payload))). rewrite NV. reflexivity.
Qed.
