(** The command line client whose CA changes its configuration.

    Most of this repeats lemmas of ClientSessionFacts and ServerFacts for CAs that have changed their configuration. *)
From Verif Require Import CryptoFacts ChalProps RequestFacts RequesterFacts SessionFacts OutcomeFacts TraceProps ServerFacts EndToEndFacts.
From Verif Require Export Spec_ReconfigClient ClientSessionFacts ReconfigSessionFacts.
From Coq Require Import Lia.
Local Open Scope N_scope.

(** ** The certificates the server holds *)
Lemma interest_shape_c : forall E g S (ops : store_ops S) s i x full o, r_at E g ops s -> on_interest E g ops s i x = (full, o) -> shape full.
Proof.
  intros E g S ops s i x full o A H.
  assert (NEW : forall add_ok rt, rt = RT_NEW \/ rt = RT_REVOKE -> on_new E g add_ok (ca_idkey s) i rt x = (full, o) -> shape full).
  { intros add_ok rt RT Q. apply on_new_cases in Q; [|exact RT]. destruct Q as [(peer & c & AD & AO & -> & ->)|[(code & info & -> & -> & _ & _)|(-> & -> & _)]]; apply sh_boring; repeat constructor. }
  destruct (on_interest_cases E g S ops s i x) as [[NA Q]|(v & AD & Q)]; rewrite Q in H.
  - injection H as <- <-. apply sh_boring. constructor.
  - destruct v; cbn [handle] in H.
    + unfold on_discovery, on_get_profile in H. destruct (profile_data E g (ca_prof s) (in_version i)); [destruct (ca_prof s)| | |]; injection H as <- <-; apply sh_boring; repeat constructor.
    + unfold on_probe in H. match type of H with match ?b with _ => _ end = _ => destruct b as [[reds sufs]| | |] end; try (injection H as <- <-; apply sh_boring; constructor).
      destruct reds, sufs; unfold put_error in H; injection H as <- <-; apply sh_boring; repeat constructor.
    + exact (NEW _ RT_NEW (or_introl eq_refl) H).
    + destruct (on_challenge_cases E g (s_get ops (ca_store s)) i x) as [(r & F & CO)|[(NF' & NUB & info & FI & Q')|(UB1 & Q')]].
      * rewrite H in CO. destruct F as (id & _ & GR). destruct (pending_good_s E g S ops s id r A GR) as (_ & _ & GD); assert (T : rq_type r = RT_NEW \/ rq_type r = RT_REVOKE) by apply GD. exact (chal_shape E g i x r full o CO T).
      * rewrite Q' in H. injection H as <- <-. apply sh_boring. repeat constructor.
      * rewrite Q' in H. injection H as <- <-. apply sh_boring. constructor.
    + exact (NEW _ RT_REVOKE (or_intror eq_refl) H).
Qed.
Lemma step_shape_c : forall E g S (ops : store_ops S) s ev s' es, r_at E g ops s -> step E g ops s ev = Some (s', es) -> ~ restarts ev -> shape es.
Proof.
  intros E g S ops s ev s' es A H NR. destruct ev as [i x|i x n k|k|i]; try (destruct NR; exact I).
  - cbn [step] in H. destruct (on_interest E g ops s i x) as [full o] eqn:Q. assert (full = es) by (destruct o; congruence). subst full. exact (interest_shape_c E g S ops s i x es o A Q).
  - cbn [step] in H. unfold on_get_profile in H. destruct (profile_data E g (ca_prof s) (in_version i)); try discriminate; [destruct (ca_prof s)|]; injection H as <- <-; apply sh_boring; repeat constructor.
Qed.
Lemma served_csteps : forall E S (ops : store_ops S) g s tr g2 s2, csteps E ops g s tr g2 s2 -> r_at E g ops s -> Forall (fun e => ~ restarts (h_ev (snd e))) tr ->
  forall cs, announced (map snd tr) cs -> forall cache, (length cache <= max_cached)%nat -> fold_left cache_event (seen (map snd tr)) cache = firstn max_cached (rev cs ++ cache).
Proof.
  intros E S ops g s tr g2 s2 H. induction H as [g s|g s ev es s1 tr g2 s2 ST H IH|g g1 s key tr g2 s2 Q H IH|g a s tr g2 s2 H IH|g c sk kl s tr g2 s2 H IH]; intros A NR cs AN cache L.
  - cbn [map] in AN. inversion AN; subst. symmetry. exact (firstn_all2 cache L).
  - inversion NR as [|? ? N1 N2]; subst. cbn [snd h_ev] in N1. pose proof (IH (r_at_step _ _ _ _ _ _ _ _ A ST) N2) as IH2.
    destruct (shape_step S (HStep s ev es s1) (step_shape_c _ _ _ _ _ _ _ _ A ST N1) N1) as (c1 & C1 & _ & K1). cbn [h_ev h_effs] in K1. cbn [map snd] in AN |- *.
    assert (GO : forall cs', announced (map snd tr) cs' -> fold_left cache_event (seen (HStep s ev es s1 :: map snd tr)) cache = firstn max_cached (rev (c1 ++ cs') ++ cache)).
    { intros cs' AN'. change (seen (HStep s ev es s1 :: map snd tr)) with ((ev, es) :: seen (map snd tr)). cbn [fold_left]. rewrite (K1 cache L), (IH2 cs' AN') by (rewrite firstn_length; lia).
      rewrite firstn_firstn_app, rev_app_distr, app_assoc. reflexivity. }
    inversion AN as [|? ? c cs' Y AN'|? ? cs' N AN']; subst.
    + destruct C1 as [[-> N]|(c0 & -> & _ & U)]; [destruct (N c Y)|]. rewrite (U c Y). exact (GO cs' AN').
    + destruct C1 as [[-> _]|(c0 & -> & Y & _)]; [exact (GO cs AN')|destruct (N c0 Y)].
  - inversion NR as [|? ? N1 N2]; subst. destruct N1. exact I.
  - apply IH; auto. eapply r_at_csteps; [exact A|]. apply (csteps_file E ops g a). constructor.
  - apply IH; auto. eapply r_at_csteps; [exact A|]. apply (csteps_key E ops g c sk kl). constructor.
Qed.
Lemma cache_len : forall h cache, (length cache <= max_cached)%nat -> (length (fold_left cache_event h cache) <= max_cached)%nat.
Proof.
  assert (CB : forall es cache, (length cache <= max_cached)%nat -> (length (fold_left (fun c e => match e with ECallback r => cache_callback c r | _ => c end) es cache) <= max_cached)%nat).
  { induction es as [|e es IH]; intros cache L; [exact L|]. cbn [fold_left]. apply IH. destruct e; try exact L. unfold cache_callback. destruct (_ && _); [|exact L].
    rewrite push_trim by exact L. rewrite firstn_length. lia. }
  induction h as [|[ev es] h IH]; intros cache L; [exact L|]. cbn [fold_left]. apply IH. unfold cache_event. cbn [fst snd]. destruct ev; try (apply CB; exact L); apply Nat.le_0_l.
Qed.
(** A certificate announced is served, as long as the server runs and fewer than 100 others have been announced. *)
Lemma announced_served : forall E S (ops : store_ops S) tr g ca i x es ca' cert profile v later g2 ca2 newer, reconfigured E ops tr g ca -> step E g ops ca (EvInterest i x) = Some (ca', es) ->
  announces (HStep ca (EvInterest i x) es ca') cert -> under (p_prefix (cfp g)) (c_name cert) -> d_name profile = profile_name g v ->
  csteps E ops g ca' later g2 ca2 -> Forall (fun e => ~ restarts (h_ev (snd e))) later -> announced (map snd later) newer -> (length newer < 100)%nat ->
  Forall (fun c0 => ~ begins (c_name cert) (full_name E c0)) newer ->
  serve E profile (server_cache (seen (map snd (tr ++ (g, HStep ca (EvInterest i x) es ca') :: later)))) (c_name cert) = Some (SCert cert).
Proof.
  intros E S ops tr g ca i x es ca' cert profile v later g2 ca2 newer H ST Y U PN CS NR AN LN OT. assert (A : r_at E g ops ca) by (exists tr; exact H).
  unfold server_cache, seen. rewrite !map_app, fold_left_app. cbn [map snd h_ev h_effs fold_left].
  set (K := fold_left cache_event (map (fun st => (h_ev st, h_effs st)) (map snd tr)) []).
  assert (LK : (length K <= max_cached)%nat) by (apply cache_len, Nat.le_0_l).
  destruct (shape_step S (HStep ca (EvInterest i x) es ca') (step_shape_c _ _ _ _ _ _ _ _ A ST (fun F => F)) (fun F => F)) as (c1 & C1 & _ & K1). cbn [h_ev h_effs] in K1.
  destruct C1 as [[_ N]|(c0 & -> & _ & Q)]; [destruct (N cert Y)|]. rewrite <- (Q cert Y) in K1. cbn [rev app] in K1. rewrite (K1 K LK).
  pose proof (served_csteps E S ops g ca' later g2 ca2 CS (r_at_step _ _ _ _ _ _ _ _ A ST) NR newer AN (firstn max_cached (cert :: K)) ltac:(rewrite firstn_length; lia)) as FE.
  unfold seen in FE. rewrite FE, firstn_firstn_app.
  assert (Q2 : exists rest, firstn max_cached (rev newer ++ cert :: K) = rev newer ++ cert :: rest).
  { rewrite firstn_app, (firstn_all2 (rev newer)) by (rewrite rev_length; unfold max_cached; lia). rewrite rev_length. destruct (max_cached - length newer)%nat as [|k] eqn:Z; [unfold max_cached in Z; lia|]. cbn [firstn]. eauto. }
  destruct Q2 as (rest & ->). unfold serve.
  assert (NP : ~ begins (c_name cert) (d_name profile)) by (rewrite PN; exact (not_profile (wide g) _ v (under_wide g _ U))). apply begins_not in NP. rewrite NP.
  assert (FD : forall l, Forall (fun c0 => ~ begins (c_name cert) (full_name E c0)) l -> find (fun c0 => is_prefix (c_name cert) (full_name E c0)) (l ++ cert :: rest) = Some cert).
  { induction l as [|c9 l IH]; intros F; cbn [app find].
    - assert (B : is_prefix (c_name cert) (full_name E cert) = true) by (apply begins_iff; eexists; reflexivity). rewrite B. reflexivity.
    - inversion F as [|? ? F1 F2]; subst. apply begins_not in F1. rewrite F1. exact (IH F2). }
  rewrite FD; [reflexivity|]. apply Forall_rev. exact OT.
Qed.

(** ** The client *)
Lemma first_challenge_c : forall E g S (ops : store_ops S) ctype id sk creq ca s c ci ls params, aes_laws E -> sig_laws E -> linked_c E g ops RT_NEW ctype id sk creq None ca s ->
  begins_with ctype params -> (forall addr, params = [(bs "email", addr)] -> exists m, cl_probe c = Some m /\ email_of m addr) ->
  exists x s1 m s2, select_challenge s ctype = (Ok m, s1) /\ gen_challenge E s1 (ci_ri ci) params = (Ok x, s2) /\ run_challenge E c s ci ls ctype = (up_req (Some s2) c, NWait x WChallenge).
Proof.
  intros E g S ops ctype id sk creq ca s c ci ls params LA LS LK B EM.
  destruct (lc_req _ _ _ _ _ _ _ LK) as (r & P & _ & _ & K & DV & STR). pose proof STR as (_ & _ & SS & SC).
  destruct (begin_payload ctype params B) as (els & ks & AK & PY & W & NE & SZ & SE). rewrite <- SS, <- SC in AK, PY.
  destruct (send_linked_c E g S ops RT_NEW ctype id sk creq None ca s (ci_ri ci) params els ks r ctype LA LS LK P DV K STR AK PY W NE SZ SE) as (x & m & iv2 & SEL & GC & _).
  eexists. eexists. exists m. eexists. split; [exact SEL|]. split; [exact GC|]. unfold run_challenge. rewrite SEL. cbn [upd_ctype rs_status]. rewrite SS. change (ST_BEFORE =? ST_BEFORE) with true. cbn [andb].
  unfold select_challenge in SEL. rewrite SS, SC in SEL. destruct B as [|addr B].
  - injection SEL as <-. rewrite GC. reflexivity.
  - injection SEL as <-. destruct (EM addr eq_refl) as (m0 & PM & EO). change (bytes_eqb (bs "email") K_EMAIL) with true. cbv iota. rewrite PM. change K_EMAIL with (bs "email") at 2. rewrite (email_found _ _ EO).
    change (mm_find (bs "email") [(K_EMAIL, prompt_email)]) with (Some prompt_email). cbv iota. cbn [map fst]. change (bytes_eqb K_EMAIL (bs "email")) with true. cbv iota. change K_EMAIL with (bs "email"). rewrite GC. reflexivity.
Qed.
Lemma next_challenge_c : forall E g S (ops : store_ops S) ctype life id sk creq code k t ca s c ci typed, aes_laws E -> sig_laws E -> code_life ctype life -> linked_c E g ops RT_NEW ctype id sk creq (Some (code, k, t)) ca s ->
  types ci typed -> blen typed < 2 ^ 30 ->
  exists x s1 m s2, select_challenge s ctype = (Ok m, s1) /\ gen_challenge E s1 (ci_ri ci) [(bs "code", typed)] = (Ok x, s2) /\ run_challenge E c s ci (ci_lines ci) ctype = (up_req (Some s2) c, NWait x WChallenge).
Proof.
  intros E g S ops ctype life id sk creq code k t ca s c ci typed LA LS CL LK TY B.
  destruct (lc_req _ _ _ _ _ _ _ LK) as (r & P & _ & _ & K & DV & STR). pose proof STR as (_ & _ & _ & _ & _ & SS & _ & _ & cs & C & SC & WC & _).
  assert (W : wants (rs_cstatus s)) by (rewrite SC; exact WC).
  destruct (code_payload ctype life (rs_cstatus s) typed CL W B) as (AK & PY & WF & SZ & SEL0). rewrite <- SS in AK, PY.
  destruct (send_linked_c E g S ops RT_NEW ctype id sk creq _ ca s (ci_ri ci) _ (code_els ctype typed) _ r ctype LA LS LK P DV K STR AK PY WF ltac:(discriminate) SZ SEL0) as (x & m & iv2 & SEL & GC & _).
  assert (KS : map fst m = [bs "code"]) by (apply asks_iff in AK as (m' & SEL' & Q); rewrite SEL in SEL'; injection SEL' as <-; exact Q).
  eexists. eexists. exists m. eexists. split; [exact SEL|]. split; [exact GC|]. unfold run_challenge. rewrite SEL. cbn [upd_ctype rs_status]. rewrite SS. change (ST_CHALLENGE =? ST_BEFORE) with false. cbn [andb].
  destruct m as [|[k0 v0] [|]]; try discriminate. injection KS as ->. cbn [capture fst].
  assert (NL : exists l', next_line (ci_lines ci) = (typed, l')). { unfold types in TY. destruct (ci_lines ci); cbn [next_line]; subst typed; eauto. } destruct NL as (l' & ->). cbn [fst]. rewrite GC. reflexivity.
Qed.
Lemma client_opens_c : forall E S (ops : store_ops S) file pb h c x s0 ri tr g i ca0 ci identity kid sk nb na ctype life params, env_laws E -> config_fits g ->
  client_run E file pb h c (NWait x WNew) -> has_applied E c x s0 ri (identity ++ [gc (bs "KEY"); kid]) sk nb na -> holds (cl_pib c) identity kid sk ->
  reconfigured E ops tr g ca0 -> applies E g s0 ri i (identity ++ [gc (bs "KEY"); kid]) sk nb na ->
  let creq := cert_request E sk ri (identity ++ [gc (bs "KEY"); kid]) nb na in let id := id_for E (ca_idkey ca0) (c_name creq) in
  pending ops ca0 id = None -> length (ri_salt0 (ci_ri ci)) = 32%nat -> selects_first g c (ci_lines ci) ctype life params ->
  exists ca d c' x', answers E g ops ca0 i x ca d /\ client_run E file pb ((ci, Some (CData d)) :: h) c' (NWait x' WChallenge) /\
    in_round_change E ops ctype life id sk creq None (ci_ri ci) params g ca c' x'.
Proof.
  intros E S ops file pb h c x s0 ri tr g i ca0 ci identity kid sk nb na ctype life params L CF R (sx & GN & RQ) HO A AP creq id P L2 SF.
  destruct (open_change E S ops ctype life tr g ca0 s0 ri (ci_ri ci) i _ sk nb na L CF A AP P L2) as (ca & es & s & OP & SE). fold creq in OP, SE. change (request_id_of E (ca_idkey ca0) (c_name creq)) with id in SE.
  pose proof OP as OP'. unfold opening in OP'. rewrite GN in OP'. destruct (step E g ops ca0 (EvInterest i x)) as [[ca' es']|] eqn:ST; [|discriminate]. destruct (puts es') as [|d [|]] eqn:PU; try discriminate.
  destruct (on_new_response E sx (ci_ri ci) d) as [[chals| | |] s2] eqn:NR; try discriminate. injection OP' as -> -> -> ->.
  pose proof L as [LA LE LH LS LC].
  assert (B : begins_with ctype params) by (destruct SF; constructor; assumption).
  destruct (session_linked_c E S ops ctype life id sk creq None g ca s L ltac:(intros N; contradiction N; reflexivity) SE) as [LK _].
  set (c1 := up_req (Some s) c).
  assert (FC : forall ls, exists y s1 m s3, select_challenge s ctype = (Ok m, s1) /\ gen_challenge E s1 (ci_ri ci) params = (Ok y, s3) /\ run_challenge E c1 s ci ls ctype = (up_req (Some s3) c1, NWait y WChallenge)).
  { intros ls. apply (first_challenge_c E g S ops ctype id sk creq ca s c1 ci ls params LA LS LK B). intros addr Q. destruct SF as [m0 a IN PM EO BL|]; [injection Q as <-; exists m0; auto|discriminate]. }
  assert (NC : exists ls, new_cb E c ci d = run_challenge E c1 s ci ls ctype).
  { unfold new_cb. rewrite RQ, NR. fold c1. destruct SF as [m0 a IN PM EO BL|l ls' v NI LL SV NT].
    - exists (ci_lines ci). assert (X : existsb (bytes_eqb K_EMAIL) (p_challenges (cfp g)) = true) by (apply existsb_exists; exists (bs "email"); split; [exact IN|reflexivity]).
      rewrite X. destruct (p_challenges (cfp g)); [destruct IN|reflexivity].
    - exists ls'. assert (X : existsb (bytes_eqb K_EMAIL) (p_challenges (cfp g)) = false).
      { destruct (existsb _ _) eqn:X; [|reflexivity]. apply existsb_exists in X as (b & IB & Q). apply bytes_eqb_eq in Q. subst b. destruct (NI IB). }
      rewrite X. assert (LT : (N.to_nat v < length (p_challenges (cfp g)))%nat) by (apply nth_error_Some; congruence).
      assert (CI : capture_index 3 (length (p_challenges (cfp g))) (ci_lines ci) = (Some (N.to_nat v), ls')).
      { rewrite LL. cbn [capture_index next_line]. rewrite SV. destruct (v <? N.of_nat (length (p_challenges (cfp g)))) eqn:Q; [reflexivity|]. apply N.ltb_ge in Q. lia. }
      rewrite CI, NT. destruct (p_challenges (cfp g)); [cbn in LT; lia|reflexivity]. }
  destruct NC as (ls & NC). destruct (FC ls) as (y & s1 & m & s3 & SEL & GC & RC).
  exists ca, d, (up_req (Some s3) c1), y. split; [exists es; auto|]. split.
  - eapply run_event; [exact R| |cbn [client_step]; rewrite NC; exact RC]. cbn. eapply step_named; [|exact ST|exact PU]. left. eapply new_addressed; [exact (ap_prefix _ _ _ _ _ _ _ _ _ AP)|exact GN].
  - split; [exists s, s1, m, s3; auto|]. exists identity, kid. eexists. eexists. split; [unfold creq, cert_request; cbn [c_name]; rewrite <- app_assoc; reflexivity|exact HO].
Qed.
Lemma client_meanwhile_c : forall E S (ops : store_ops S) ctype life id sk creq ph ri params g ca c x g' ca', in_round_change E ops ctype life id sk creq ph ri params g ca c x ->
  quiet_change E ops id (o_pub E sk) g ca g' ca' -> o_pub E (cf_sk g') = o_pub E (cf_sk g) -> in_round_change E ops ctype life id sk creq ph ri params g' ca' c x.
Proof. intros E S ops ctype life id sk creq ph ri params g ca c x g' ca' ((s & s1 & m & s2 & SE & R) & HO) Q K. split; [|exact HO]. exists s, s1, m, s2. split; [eapply sc_quiet; eassumption|exact R]. Qed.
Lemma played_c : forall E g S (ops : store_ops S) file pb h c x ctype life id sk creq ph ri params ca i ci ca' es s' s s1 m s2, env_laws E -> (ph <> None -> code_life ctype life) ->
  client_run E file pb h c (NWait x WChallenge) -> session_change E ops ctype life id sk creq ph g ca s -> select_challenge s ctype = (Ok m, s1) -> gen_challenge E s1 ri params = (Ok x, s2) -> cl_req c = Some s2 ->
  round E g ops ca s ri (ci_ri ci) i ctype params = Some (ca', es, s') ->
  exists d, step E g ops ca (EvInterest i x) = Some (ca', es) /\ puts es = [d] /\ matches E x WChallenge (CData d) /\
    challenge_cb E c ci d = (if rs_status s' =? ST_SUCCESS then (up_req (Some s') c, NWait (fst (gen_cert_fetch s')) WCert) else run_challenge E (up_req (Some s') c) s' ci (ci_lines ci) (rs_ctype s')).
Proof.
  intros E g S ops file pb h c x ctype life id sk creq ph ri params ca i ci ca' es s' s s1 m s2 L CL R SE SEL GC RQ RD. unfold round in RD. rewrite SEL, GC in RD.
  destruct (step E g ops ca (EvInterest i x)) as [[ca1 es1]|] eqn:ST; [|discriminate]. destruct (puts es1) as [|d [|]] eqn:PU; try discriminate. destruct (on_challenge_response E s2 (ci_ri ci) d) as [[u| | |] s3] eqn:CR; try discriminate. injection RD as -> -> ->.
  exists d. split; [reflexivity|]. split; [exact PU|]. split.
  - cbn. eapply step_named; [|exact ST|exact PU]. right. eapply chal_addressed; [|exact GC].
    destruct (session_linked_c E S ops ctype life id sk creq ph g ca s L CL SE) as [LK _]. unfold select_challenge in SEL. destruct (requested_params _ _ _) as [r|]; [|discriminate]. injection SEL as _ <-. cbn [upd_ctype rs_profile]. exact (lc_prefix _ _ _ _ _ _ _ LK).
  - unfold challenge_cb. rewrite RQ, CR. reflexivity.
Qed.
Lemma asked_again_c : forall E g S (ops : store_ops S) file pb h c x ctype life id sk creq code k t ca' s' ci d typed, env_laws E -> code_life ctype life ->
  client_run E file pb h c (NWait x WChallenge) -> matches E x WChallenge (CData d) -> session_change E ops ctype life id sk creq (Some (code, k, t)) g ca' s' ->
  challenge_cb E c ci d = (if rs_status s' =? ST_SUCCESS then (up_req (Some s') c, NWait (fst (gen_cert_fetch s')) WCert) else run_challenge E (up_req (Some s') c) s' ci (ci_lines ci) (rs_ctype s')) ->
  (exists identity kid issuer version, c_name creq = identity ++ [gc (bs "KEY"); kid; issuer; version] /\ holds (cl_pib c) identity kid sk) -> types ci typed -> blen typed < 2 ^ 30 ->
  exists c' x', client_run E file pb ((ci, Some (CData d)) :: h) c' (NWait x' WChallenge) /\ in_round_change E ops ctype life id sk creq (Some (code, k, t)) (ci_ri ci) [(bs "code", typed)] g ca' c' x'.
Proof.
  intros E g S ops file pb h c x ctype life id sk creq code k t ca' s' ci d typed L CL R M SE CB HO TY B. pose proof L as [LA LE LH LS LC].
  destruct (session_linked_c E S ops ctype life id sk creq _ g ca' s' L (fun _ => CL) SE) as [LK _].
  destruct (lc_req _ _ _ _ _ _ _ LK) as (r & _ & _ & _ & _ & _ & (_ & _ & _ & _ & _ & SS & SCT & _)). rewrite SS, SCT in CB. change (ST_CHALLENGE =? ST_SUCCESS) with false in CB. cbv iota in CB.
  destruct (next_challenge_c E g S ops ctype life id sk creq code k t ca' s' (up_req (Some s') c) ci typed LA LS CL LK TY B) as (x' & s1 & m & s2 & SEL & GC & RC).
  exists (up_req (Some s2) (up_req (Some s') c)), x'. split; [eapply run_event; [exact R|exact M|cbn [client_step]; rewrite CB; exact RC]|]. split; [exists s', s1, m, s2; auto|exact HO].
Qed.
Lemma client_asked_c : forall E g S (ops : store_ops S) file pb h c x ctype life id sk creq ri params ca i ci code typed, env_laws E -> code_life ctype life ->
  client_run E file pb h c (NWait x WChallenge) -> in_round_change E ops ctype life id sk creq None ri params g ca c x -> begins_with ctype params ->
  gen_code (in_words i) = Ok code -> in_script_ok i = true -> (0 <= in_t2 i)%Z -> be_enc 8 (ri_iv ri) <> rnd_iv i -> clock_ok (ci_ri ci) -> types ci typed -> blen typed < 2 ^ 30 ->
  exists ca' d c' x', answers E g ops ca i x ca' d /\ client_run E file pb ((ci, Some (CData d)) :: h) c' (NWait x' WChallenge) /\
    in_round_change E ops ctype life id sk creq (Some (code, O, in_t2 i)) (ci_ri ci) [(bs "code", typed)] g ca' c' x'.
Proof.
  intros E g S ops file pb h c x ctype life id sk creq ri params ca i ci code typed L CL R ((s & s1 & m & s2 & SE & SEL & GC & RQ) & HO) BW G SK T2 IV CK TY B.
  destruct (start_change E S ops ctype life id sk creq g ca s ri (ci_ri ci) i params code L CL SE BW G SK T2 IV CK) as (ca' & s' & d0 & r & es & RD & _ & SE' & _).
  destruct (played_c E g S ops file pb h c x ctype life id sk creq None ri params ca i ci ca' _ s' s s1 m s2 L (fun _ => CL) R SE SEL GC RQ RD) as (d & ST & PU & M & CB).
  destruct (asked_again_c E g S ops file pb h c x ctype life id sk creq code 0 (in_t2 i) ca' s' ci d typed L CL R M SE' CB HO TY B) as (c' & x' & R' & IR).
  exists ca', d, c', x'. split; [eexists; eauto|]. auto.
Qed.
Lemma client_wrong_c : forall E g S (ops : store_ops S) file pb h c x ctype life id sk creq code k t ri given ca i ci typed, env_laws E -> code_life ctype life ->
  client_run E file pb h c (NWait x WChallenge) -> in_round_change E ops ctype life id sk creq (Some (code, k, t)) ri [(bs "code", given)] g ca c x -> given <> code -> blen given < 2 ^ 30 -> (k < 2)%nat ->
  (t <= in_t1 i < t + sec life - 1000 /\ 0 <= in_t2 i)%Z -> clock_ok (ci_ri ci) -> types ci typed -> blen typed < 2 ^ 30 ->
  exists ca' d c' x', answers E g ops ca i x ca' d /\ client_run E file pb ((ci, Some (CData d)) :: h) c' (NWait x' WChallenge) /\
    in_round_change E ops ctype life id sk creq (Some (code, Datatypes.S k, in_t2 i)) (ci_ri ci) [(bs "code", typed)] g ca' c' x'.
Proof.
  intros E g S ops file pb h c x ctype life id sk creq code k t ri given ca i ci typed L CL R ((s & s1 & m & s2 & SE & SEL & GC & RQ) & HO) NE BG K2 TB CK TY B.
  destruct (wrong_change E S ops ctype life id sk creq code k t g ca s ri (ci_ri ci) i given L CL SE NE BG TB CK K2) as (ca' & s' & d0 & r & RD & SE' & _).
  destruct (played_c E g S ops file pb h c x ctype life id sk creq _ ri _ ca i ci ca' _ s' s s1 m s2 L (fun _ => CL) R SE SEL GC RQ RD) as (d & ST & PU & M & CB).
  destruct (asked_again_c E g S ops file pb h c x ctype life id sk creq code _ (in_t2 i) ca' s' ci d typed L CL R M SE' CB HO TY B) as (c' & x' & R' & IR).
  exists ca', d, c', x'. split; [eexists; eauto|]. auto.
Qed.
Lemma client_third_c : forall E g S (ops : store_ops S) file pb h c x ctype life id sk creq code t ri given ca i ci, env_laws E -> code_life ctype life ->
  client_run E file pb h c (NWait x WChallenge) -> in_round_change E ops ctype life id sk creq (Some (code, 2%nat, t)) ri [(bs "code", given)] g ca c x -> given <> code -> blen given < 2 ^ 30 ->
  (t <= in_t1 i < t + sec life - 1000)%Z ->
  exists ca' d c', answers E g ops ca i x ca' d /\ client_run E file pb ((ci, Some (CData d)) :: h) c' (NExit 1) /\ pending ops ca' id = None /\ cl_pib c' = cl_pib c.
Proof.
  intros E g S ops file pb h c x ctype life id sk creq code t ri given ca i ci L CL R ((s & s1 & m & s2 & SE & SEL & GC & RQ) & _) NE BG TB.
  pose proof L as [LA LE LH LS LC]. destruct (session_linked_c E S ops ctype life id sk creq _ g ca s L (fun _ => CL) SE) as [LK _].
  destruct (guess_sent_c E g S ops RT_NEW ctype life id sk creq code 2 t ca s ri i given LA LS CL LK BG TB) as (r & cs & m' & x' & iv2 & msg & P & CR & RT & K & DV & IE & TR & SEL' & GC' & N & SB & OP & I2 & RN & FM & HC).
  rewrite SEL' in SEL. injection SEL as <- <-. rewrite GC' in GC. injection GC as <- <-.
  pose proof (lc_at _ _ _ _ _ _ _ LK) as A. destruct (lc_cert _ _ _ _ _ _ _ LK) as (cc & PC & PK). destruct (pending_live_s E g S ops ca id r A P) as [IDR LV].
  pose proof (chal_forward_c E g S ops ca i x' id r _ ctype iv2 A N P SB OP) as FW. rewrite HC in FW. rewrite (proj2 (bytes_eqb_neq given code) NE), TR in FW.
  change (1 <? 3 - N.of_nat 2) with false in FW. cbv iota in FW. cbn [ret_error h_out h_email email_effs] in FW. change (negb (OUT_OF_TRIES =? NO_ERROR)) with true in FW. cbv iota in FW.
  unfold drop_error in FW. cbn [app] in FW. pose proof (ok_step E g S ops ca i x' _ FW) as ST.
  eexists. exists (error_data E g (i_name x') OUT_OF_TRIES msg), c. split; [eexists; split; [exact ST|reflexivity]|].
  split; [|split; [|reflexivity]].
  - eapply run_event; [exact R|reflexivity|]. apply (client_bad_reply E file pb h c x' WChallenge ci _ (rs_profile s) cc R); [right; split; [right; reflexivity|eexists; split; [exact RQ|reflexivity]]|exact PC|].
    right. exists OUT_OF_TRIES. split; [discriminate|]. apply decoded_error; [|discriminate].
    destruct (error_data_reply E g x' OUT_OF_TRIES msg) as (_ & _ & info & Q); [split; [discriminate|]; split; [discriminate|exact FM]|]. rewrite Q. reflexivity.
  - exact (deleted_gone_s E g S ops _ _ _ _ id A ST (or_introl (f_equal EDelete IDR))).
Qed.
Lemma client_done_c : forall E S (ops : store_ops S) file pb h c x ctype life id sk creq code k t ri tr g ca i ci profile v, env_laws E -> config_fits g -> code_life ctype life ->
  client_run E file pb h c (NWait x WChallenge) -> in_round_change E ops ctype life id sk creq (Some (code, k, t)) ri [(bs "code", code)] g ca c x -> reconfigured E ops tr g ca ->
  (t <= in_t1 i < t + sec life - 1000)%Z -> clock_ok (ci_ri ci) -> d_name profile = profile_name g v ->
  exists ca' es d c' y cert, let st := HStep ca (EvInterest i x) es ca' in
    step E g ops ca (EvInterest i x) = Some (ca', es) /\ puts es = [d] /\ client_run E file pb ((ci, Some (CData d)) :: h) c' (NWait y WCert) /\ certifies E g creq cert /\
    (forall later g2 ca2 newer, csteps E ops g ca' later g2 ca2 -> Forall (fun e => ~ restarts (h_ev (snd e))) later -> announced (map snd later) newer -> (length newer < 100)%nat ->
      Forall (fun c0 => ~ begins (c_name cert) (full_name E c0)) newer -> serve E profile (server_cache (seen (map snd (tr ++ (g, st) :: later)))) (i_name y) = Some (SCert cert)) /\
    forall ci2, exists c2, client_run E file pb ((ci2, Some (CCert cert)) :: (ci, Some (CData d)) :: h) c2 NDone /\ cl_installed c2 = [cert].
Proof.
  intros E S ops file pb h c x ctype life id sk creq code k t ri tr g ca i ci profile v L CF CL R ((s & s1 & m & s2 & SE & SEL & GC & RQ) & (identity & kid & iss & ver & CN & ident & PG & FK)) H TB CK PN.
  destruct (right_change E S ops ctype life id sk creq code k t g ca s ri (ci_ri ci) i L CF CL SE TB CK) as (ca' & s' & cert & d0 & r & RD & CE & PK & SS & IS & _ & _).
  destruct (played_c E g S ops file pb h c x ctype life id sk creq _ ri _ ca i ci ca' _ s' s s1 m s2 L (fun _ => CL) R SE SEL GC RQ RD) as (d & ST & PU & M & CB).
  rewrite SS in CB. change (ST_SUCCESS =? ST_SUCCESS) with true in CB. cbv iota in CB.
  assert (R1 : client_run E file pb ((ci, Some (CData d)) :: h) (up_req (Some s') c) (NWait (fst (gen_cert_fetch s')) WCert)) by (eapply run_event; [exact R|exact M|exact CB]).
  assert (U : under (p_prefix (cfp g)) (c_name cert)).
  { destruct (session_linked_c E S ops ctype life id sk creq _ g ca s L (fun _ => CL) SE) as [LK _]. destruct (lc_req _ _ _ _ _ _ _ LK) as (r0 & P0 & CR0 & _).
    destruct (pending_good_s E g S ops ca id r0 (lc_at _ _ _ _ _ _ _ LK) P0) as (_ & _ & _ & _ & _ & U0). rewrite CR0 in U0. destruct U0 as (sfx & kd & is1 & vr & Q & NE). destruct CE as (kn & i0 & v0 & v1 & Q0 & Q1 & _). rewrite Q in Q0. rewrite app_assoc in Q0.
    exists sfx, kd. eexists. eexists. split; [|exact NE]. rewrite Q1, (two_names _ _ _ _ _ _ _ _ Q0), <- !app_assoc. reflexivity. }
  exists ca', [EIssue cert; EDelete id; EPut d0; ECallback r], d, (up_req (Some s') c), (fst (gen_cert_fetch s')), cert. cbn zeta. split; [exact ST|]. split; [exact PU|]. split; [exact R1|]. split; [exact CE|].
  split.
  { intros later g2 ca2 newer SL NR AL LN OT. unfold gen_cert_fetch. cbn [fst i_name]. rewrite IS. eapply announced_served; try eassumption. split; [left; reflexivity|]. cbn. discriminate. }
  assert (KN : exists a b, c_name cert = identity ++ [gc (bs "KEY"); kid; a; b]).
  { destruct CE as (kn & i0 & v0 & v1 & Q0 & Q1 & _). rewrite CN in Q0. rewrite Q1, (two_names _ _ _ _ _ _ _ _ Q0), <- app_assoc. eexists. eexists. reflexivity. }
  destruct KN as (a & b & KN).
  intros ci2. assert (OK : on_cert_fetch cert = Ok cert).
  { unfold on_cert_fetch. rewrite (issued_cert_ok E (wide g) cert sk (laws_sig _ L) (under_wide g _ U)); [reflexivity| |exact PK]. destruct CE as (_ & _ & _ & _ & _ & _ & _ & _ & IK & _). exact IK. }
  exists (up_installed (cert :: cl_installed (up_req (Some s') c)) (up_req (Some s') c)). split.
  - eapply run_event; [exact R1|cbn; left; rewrite IS; reflexivity|]. cbn [client_step]. unfold cert_cb. rewrite OK, KN, identity_of_shape, key_name_of_shape. cbn [up_req cl_pib]. rewrite PG, FK.
    rewrite PK, bytes_eqb_refl. reflexivity.
  - cbn [up_installed cl_installed up_req]. destruct (run_phase E file pb h c _ R) as [(sx & (_ & _ & _ & _ & IN & _) & _) _]. rewrite IN. reflexivity.
Qed.
(** Another key: the certificate is issued, and the client leaves without it. *)
Lemma client_key_change : forall E S (ops : store_ops S) file pb h c x ctype life id sk creq code k t ri g ca g' ca' i ci, env_laws E -> config_fits g' -> code_life ctype life ->
  client_run E file pb h c (NWait x WChallenge) -> in_round_change E ops ctype life id sk creq (Some (code, k, t)) ri [(bs "code", code)] g ca c x ->
  quiet_change E ops id (o_pub E sk) g ca g' ca' -> (forall m, o_verify E (o_pub E (cf_sk g)) m (o_sign E (cf_sk g') m) = false) -> (t <= in_t1 i < t + sec life - 1000)%Z ->
  exists ca2 es d c2 cert, step E g' ops ca' (EvInterest i x) = Some (ca2, es) /\ puts es = [d] /\ In (EIssue cert) es /\ certifies E g' creq cert /\ public_key cert = o_pub E sk /\ pending ops ca2 id = None /\
    client_run E file pb ((ci, Some (CData d)) :: h) c2 (NExit 1) /\ cl_installed c2 = [].
Proof.
  intros E S ops file pb h c x ctype life id sk creq code k t ri g ca g' ca' i ci L CF CL R ((s & s1 & m & s2 & SE & SEL & GC & RQ) & _) QC NV TB.
  destruct (key_change E S ops ctype life id sk creq code k t g ca s g' ca' ri i L CF CL SE QC NV TB) as (x' & s' & ca2 & cert & d & r & (m' & s1' & SEL' & GC') & ST & CE & PK & P2 & BAD).
  rewrite SEL in SEL'. injection SEL' as <- <-. rewrite GC in GC'. injection GC' as <- <-. specialize (BAD (ci_ri ci)). destruct (on_challenge_response E s2 (ci_ri ci) d) as [o s3] eqn:CR. cbn [fst] in BAD. subst o.
  exists ca2. eexists. exists d, (up_req (Some s3) c), cert. split; [exact ST|]. split; [reflexivity|]. split; [left; reflexivity|]. split; [exact CE|]. split; [exact PK|]. split; [exact P2|]. split.
  - eapply run_event; [exact R| |cbn [client_step]; unfold challenge_cb; rewrite RQ, CR; reflexivity]. cbn. eapply step_named; [|exact ST|reflexivity]. right. eapply chal_addressed; [|exact GC].
    destruct (session_linked_c E S ops ctype life id sk creq _ g ca s L (fun _ => CL) SE) as [LK _]. destruct QC as (tr & CS & _). unfold select_challenge in SEL. destruct (requested_params _ _ _) as [rp|]; [|discriminate]. injection SEL as _ <-. cbn [upd_ctype rs_profile].
    rewrite (csteps_prefix _ _ _ _ _ _ _ _ CS). exact (lc_prefix _ _ _ _ _ _ _ LK).
  - cbn [cl_installed up_req]. destruct (run_phase E file pb h c _ R) as [(sx & (_ & _ & _ & _ & IN & _) & _) _]. exact IN.
Qed.
