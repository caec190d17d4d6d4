(** The CA server process: a history of the CA module inside, the profile and the cache beside it. *)
From Verif Require Import ChalProps TraceProps ServerFacts OutcomeFacts.
From Verif Require Export Spec_Process.
Local Open Scope N_scope.

Lemma psteps_app : forall S E g (ops : store_ops S) repo a b p p', psteps E g ops repo p (a ++ b) p' <-> exists m, psteps E g ops repo p a m /\ psteps E g ops repo m b p'.
Proof.
  induction a as [|st a IH]; intros b p p'; cbn [app].
  - split; [intros H; exists p; split; [constructor|exact H]|]. intros (m & H1 & H2). inversion H1; subst. exact H2.
  - split.
    + intros H. inversion H as [|? ? ? p1 ? ? ST H2]; subst. apply IH in H2 as (m & H3 & H4). exists m. split; [econstructor; eassumption|exact H4].
    + intros (m & H1 & H2). inversion H1 as [|? ? ? p1 ? ? ST H3]; subst. econstructor; [exact ST|]. apply IH. eauto.
Qed.
Lemma history_next : forall S E g (ops : store_ops S) tr s ev es s', ca_history E g ops tr s -> step E g ops s ev = Some (s', es) ->
  ca_history E g ops (tr ++ [HStep s ev es s']) s'.
Proof.
  intros S E g ops tr s ev es s' [LC NF B (key & H)] ST. constructor; [exact LC|exact NF|exact B|]. exists key. apply steps_app; exists s; split; [exact H|].
  econstructor; [exact ST|constructor].
Qed.
Lemma restart_twice : forall E S (ops : store_ops S), back_end E S ops -> forall st, s_restart ops (s_restart ops st) = s_restart ops st.
Proof. intros E S ops [|] st; reflexivity. Qed.

(** ** What one Interest makes the module send *)
Lemma interest_puts : forall E g S (ops : store_ops S) s i x es o, on_interest E g ops s i x = (es, o) ->
  puts es = [] \/ exists d, puts es = [d] /\ (d_name d = i_name x \/ addressed g VInfo (i_name x)).
Proof.
  intros E g S ops s i x es o H. destruct (on_interest_cases E g S ops s i x) as [[_ Q]|(v & AD & Q)]; rewrite Q in H; [injection H as <- <-; left; reflexivity|].
  assert (NEWC : forall add_ok k rt, rt = RT_NEW \/ rt = RT_REVOKE -> on_new E g add_ok k i rt x = (es, o) -> puts es = [] \/ exists d, puts es = [d] /\ (d_name d = i_name x \/ addressed g VInfo (i_name x))).
  { intros add_ok k rt RT H'. apply on_new_cases in H' as [(peer & c & _ & _ & _ & ->)|[(code & info & _ & -> & _)|(_ & -> & _)]]; [right; eexists; split; [reflexivity|left; reflexivity]..|left; reflexivity|exact RT]. }
  destruct v; cbn [handle] in H.
  - apply discovery_cases in H as [(es0 & d & G & _ & m & -> & _)|[-> _]]; [|left; reflexivity]. right. exists m. split; [|right; exact AD].
    rewrite puts_app. apply get_profile_spec in G as [[_ ->]|(_ & -> & _)]; reflexivity.
  - unfold on_probe in H. match type of H with match ?b with _ => _ end = _ => destruct b as [[reds sufs]| | |] end; try (injection H as <- <-; left; reflexivity).
    destruct reds, sufs; unfold put_error in H; injection H as <- <-; right; (eexists; split; [reflexivity|left; reflexivity]).
  - exact (NEWC _ _ RT_NEW (or_introl eq_refl) H).
  - destruct (on_challenge_cases E g (s_get ops (ca_store s)) i x) as [(r & F & CO)|[(NF' & NUB & info & FI & Q')|(UB1 & Q')]].
    + rewrite H in CO. inversion CO; subst; try (left; reflexivity); try (right; eexists; split; [reflexivity|left; reflexivity]).
      * right. rewrite puts_app, puts_emails. eexists. split; [reflexivity|left; reflexivity].
      * left. apply puts_emails.
    + rewrite Q' in H. injection H as <- <-. right. eexists. split; [reflexivity|left; reflexivity].
    + rewrite Q' in H. injection H as <- <-. left. reflexivity.
  - exact (NEWC _ _ RT_REVOKE (or_intror eq_refl) H).
Qed.

(** ** What is handed out *)
Lemma module_app : forall a b, module_packets (a ++ b) = module_packets a ++ module_packets b.
Proof. intros a b. apply flat_map_app. Qed.
Lemma published_app : forall a b, published (a ++ b) = published a ++ published b.
Proof. intros a b. apply flat_map_app. Qed.
Lemma packets_app : forall E a b, packets E (a ++ b) = packets E a ++ packets E b.
Proof. intros E a b. apply flat_map_app. Qed.
Lemma filter_module : forall E g repo d cache x, module_packets (filter_outs E g repo d cache x) = [].
Proof. intros E g repo d cache x. unfold filter_outs. destruct repo; [reflexivity|]. destruct (is_prefix _ _); [|reflexivity]. destruct (serve _ _ _ _); reflexivity. Qed.
Lemma filter_published : forall E g repo d cache x, published (filter_outs E g repo d cache x) = [].
Proof. intros E g repo d cache x. unfold filter_outs. destruct repo; [reflexivity|]. destruct (is_prefix _ _); [|reflexivity]. destruct (serve _ _ _ _); reflexivity. Qed.
Lemma effect_module : forall repo es, module_packets (effect_outs repo es) = puts es.
Proof.
  intros repo es. unfold module_packets, effect_outs, puts. induction es as [|e es IH]; [reflexivity|]. cbn [flat_map]. rewrite flat_map_app, IH.
  destruct e; try reflexivity. destruct (repo && _ && _); reflexivity.
Qed.
Lemma effect_published : forall ev es, published (effect_outs true es) = repo_writes (ev, es).
Proof.
  intros ev es. unfold published, effect_outs, repo_writes. cbn [snd]. induction es as [|e es IH]; [reflexivity|]. cbn [flat_map]. rewrite flat_map_app, IH.
  destruct e; try reflexivity. cbn [andb]. destruct (_ && _); reflexivity.
Qed.
Lemma effect_packets : forall E repo es, packets E (effect_outs repo es) = map d_name (puts es).
Proof.
  intros E repo es. unfold packets, effect_outs, puts. induction es as [|e es IH]; [reflexivity|]. cbn [flat_map]. rewrite flat_map_app, IH, map_app.
  destruct e; try reflexivity. destruct (repo && _ && _); reflexivity.
Qed.

(** ** The module's history *)
Definition sdeal {S} (st : sstep S) : list (inputs * interest * list data) :=
  match p_ev st with PvInterest i x | PvKill i x _ => [(i, x, module_packets (p_outs st))] | _ => [] end.
Lemma sdealings_snoc : forall S (a : list (sstep S)) st, server_dealings (a ++ [st]) = server_dealings a ++ sdeal st.
Proof. intros S a st. unfold server_dealings. rewrite flat_map_app. cbn [flat_map]. rewrite app_nil_r. reflexivity. Qed.
Definition mdeal {S} (st : hstep S) : list (inputs * interest * list data) :=
  match h_ev st with EvInterest i x | EvCrash i x _ _ => [(i, x, puts (h_effs st))] | _ => [] end.
Lemma mdealings_snoc : forall S (a : list (hstep S)) st, module_dealings (a ++ [st]) = module_dealings a ++ mdeal st.
Proof. intros S a st. unfold module_dealings. rewrite flat_map_app. cbn [flat_map]. rewrite app_nil_r. reflexivity. Qed.

(** The module's history up to the last start ([a]) and since ([b]). *)
Definition inside {S} (E : env) (g : ca_cfg) (ops : store_ops S) (repo : bool) (tr : list (sstep S)) (ca : ca_state S) (d : data) (cache : list cert) : Prop :=
  exists u w a b, tr = u ++ w /\ ca_history E g ops (a ++ b) ca /\ server_dealings u = module_dealings a /\ server_dealings w = module_dealings b /\
    (exists a' st, a = a' ++ [st] /\ restarts (h_ev st)) /\ Forall (fun st => ~ restarts (h_ev st)) b /\
    (exists u' st, u = u' ++ [st] /\ is_start (p_ev st)) /\ Forall (fun st => ~ is_start (p_ev st)) w /\
    ca_prof ca = Some d /\ (if repo then cache = [] else cache = server_cache (seen (a ++ b))) /\
    (repo = true -> flat_map (fun st => published (p_outs st)) w = flat_map repo_writes (seen b)).
Definition outside {S} (E : env) (g : ca_cfg) (ops : store_ops S) (tr : list (sstep S)) (st : S) : Prop :=
  exists h s, ca_history E g ops h s /\ server_dealings tr = module_dealings h /\ s_restart ops (ca_store s) = s_restart ops st.
Definition mirrored {S} (E : env) (g : ca_cfg) (ops : store_ops S) (repo : bool) (tr : list (sstep S)) (p : proc S) : Prop :=
  match p with Down st => outside E g ops tr st | Running ca d cache => inside E g ops repo tr ca d cache end.

Lemma seen_app : forall S (a b : list (hstep S)), seen (a ++ b) = seen a ++ seen b.
Proof. intros S a b. apply map_app. Qed.
Lemma cache_snoc : forall S (a : list (hstep S)) st, server_cache (seen (a ++ [st])) = cache_event (server_cache (seen a)) (h_ev st, h_effs st).
Proof. intros S a st. unfold server_cache. rewrite seen_app, fold_left_app. reflexivity. Qed.

Lemma inside_dealings : forall E g S (ops : store_ops S) repo tr ca d cache, inside E g ops repo tr ca d cache -> exists h, ca_history E g ops h ca /\ server_dealings tr = module_dealings h.
Proof.
  intros E g S ops repo tr ca d cache (u & w & a & b & -> & H & D1 & D2 & _). exists (a ++ b). split; [exact H|].
  unfold server_dealings, module_dealings in *. rewrite !flat_map_app, D1, D2. reflexivity.
Qed.
Lemma mirror_step : forall E g S (ops : store_ops S) repo tr p ev os p', back_end E S ops -> mirrored E g ops repo tr p -> pstep E g ops repo p ev = Some (p', os) ->
  mirrored E g ops repo (tr ++ [SStep p ev os p']) p'.
Proof.
  intros E g S ops repo tr p ev os p' B M ST. destruct p as [st|ca d cache].
  - destruct ev as [key i|i x|i x n|]; try discriminate ST. cbn [pstep ca_prof] in ST. destruct M as (h & s & H & D & RS).
    assert (R1 : step E g ops s (EvRestart key) = Some (CaState (s_restart ops st) key None, [])) by (cbn [step]; unfold restart; rewrite RS; reflexivity).
    pose proof (history_next _ _ _ _ _ _ _ _ _ H R1) as H1. set (s0 := CaState (s_restart ops st) key None) in *.
    destruct (on_get_profile E g None i) as [es [dd| | |]] eqn:GP; try discriminate; injection ST as <- <-.
    + destruct (get_profile_spec _ _ _ _ _ _ GP) as [[Q _]|(_ & -> & _)]; [discriminate Q|].
      assert (R2 : step E g ops s0 (EvProfile i) = Some (apply_effs ops [EProfile dd] s0, [EProfile dd])) by (cbn [step]; change (ca_prof s0) with (@None data); rewrite GP; reflexivity).
      pose proof (history_next _ _ _ _ _ _ _ _ _ H1 R2) as H2.
      eexists (tr ++ [_]), [], _, [_]. split; [rewrite app_nil_r; reflexivity|]. split; [exact H2|]. split; [rewrite sdealings_snoc, mdealings_snoc, D; reflexivity|].
      split; [reflexivity|]. split; [eexists _, _; split; [reflexivity|exact I]|]. split; [constructor; [intros []|constructor]|].
      split; [eexists _, _; split; [reflexivity|exists key, i; reflexivity]|]. split; [constructor|]. split; [reflexivity|]. split; [|intros _; reflexivity].
      destruct repo; [reflexivity|]. rewrite !cache_snoc. reflexivity.
    + assert (es = []) by (unfold on_get_profile in GP; destruct (profile_data E g None (in_version i)); congruence). subst es.
      eexists _, s0. split; [exact H1|]. split; [rewrite sdealings_snoc, mdealings_snoc, D; reflexivity|]. reflexivity.
  - destruct ev as [key i|i x|i x n|]; try discriminate ST; cbn [pstep] in ST.
    + destruct (on_interest E g ops ca i x) as [es o] eqn:OI. destruct o as [[]| | |]; try discriminate; injection ST as <- <-.
      * destruct M as (u & w & a & b & -> & H & D1 & D2 & FR & NR & FS & NS & PR & CA & PU).
        assert (R1 : step E g ops ca (EvInterest i x) = Some (apply_effs ops es ca, es)) by (cbn [step]; rewrite OI; reflexivity).
        pose proof (history_next _ _ _ _ _ _ _ _ _ H R1) as H1.
        eexists u, (w ++ [_]), a, (b ++ [_]). split; [symmetry; apply app_assoc|]. split; [rewrite app_assoc; exact H1|]. split; [exact D1|].
        split; [rewrite sdealings_snoc, mdealings_snoc, D2; unfold sdeal, mdeal; cbn [p_ev p_outs h_ev h_effs]; rewrite module_app, filter_module, effect_module; reflexivity|].
        split; [exact FR|]. split; [apply Forall_app; split; [exact NR|constructor; [intros []|constructor]]|]. split; [exact FS|].
        split; [apply Forall_app; split; [exact NS|constructor; [intros (k & j & Q); discriminate Q|constructor]]|].
        split; [|split].
        -- pose proof (step_profile E g S ops ca _ _ _ R1 (reach_profile E g S ops ca (at_reach _ _ _ _ (history_at _ _ _ _ _ _ H)))) as [_ K]. rewrite K; [exact PR| |congruence]. constructor; [exact I|constructor].
        -- unfold cache_after. destruct repo; [exact CA|]. rewrite app_assoc, cache_snoc, CA. reflexivity.
        -- intros ->. rewrite flat_map_app, seen_app, flat_map_app, (PU eq_refl). cbn [flat_map p_outs seen map h_ev h_effs].
           rewrite published_app, filter_published, (effect_published (EvInterest i x)). reflexivity.
      * destruct (inside_dealings _ _ _ _ _ _ _ _ _ M) as (h & H & D).
        assert (R1 : step E g ops ca (EvInterest i x) = Some (apply_effs ops es ca, es)) by (cbn [step]; rewrite OI; reflexivity).
        eexists _, _. split; [exact (history_next _ _ _ _ _ _ _ _ _ H R1)|]. split; [|reflexivity].
        rewrite sdealings_snoc, mdealings_snoc, D. unfold sdeal, mdeal. cbn [p_ev p_outs h_ev h_effs]. rewrite module_app, filter_module, effect_module. reflexivity.
    + destruct (on_interest E g ops ca i x) as [es o] eqn:OI. destruct (inside_dealings _ _ _ _ _ _ _ _ _ M) as (h & H & D).
      assert (R1 : o <> UB -> step E g ops ca (EvCrash i x n []) = Some (restart ops [] (apply_effs ops (firstn n es) ca), firstn n es)) by (intros N; cbn [step]; rewrite OI; destruct o; try reflexivity; contradiction).
      assert (Q : o <> UB /\ Some (Down (ca_store (apply_effs ops (firstn n es) ca)), filter_outs E g repo d cache x ++ effect_outs repo (firstn n es)) = Some (p', os)) by (destruct o; try discriminate; (split; [discriminate|exact ST])).
      destruct Q as [N Q]. injection Q as <- <-. eexists _, _. split; [exact (history_next _ _ _ _ _ _ _ _ _ H (R1 N))|]. split.
      * rewrite sdealings_snoc, mdealings_snoc, D. unfold sdeal, mdeal. cbn [p_ev p_outs h_ev h_effs]. rewrite module_app, filter_module, effect_module. reflexivity.
      * unfold restart. cbn [ca_store]. apply (restart_twice E), B.
    + injection ST as <- <-. destruct (inside_dealings _ _ _ _ _ _ _ _ _ M) as (h & H & D). exists h, ca. split; [exact H|]. split; [|reflexivity].
      rewrite sdealings_snoc, D. apply app_nil_r.
Qed.
Lemma mirrors : forall E g S (ops : store_ops S) repo tr p, server_history E g ops repo tr p -> mirrored E g ops repo tr p.
Proof.
  intros E g S ops repo tr p [LC NF B H]. revert p H. induction tr as [|st tr IH] using rev_ind; intros p H.
  - inversion H; subst. exists [], (ca_init ops []). split; [|split; reflexivity]. constructor; [exact LC|exact NF|exact B|exists []; constructor].
  - apply psteps_app in H as (m & H1 & H2). inversion H2 as [|? ev os p1 ? ? ST H3]; subst. inversion H3; subst. exact (mirror_step _ _ _ _ _ _ _ _ _ _ B (IH _ H1) ST).
Qed.

(** The module inside the process lives one of the histories the other theorems are about. *)
Lemma process_module : forall E g S (ops : store_ops S) repo tr p, server_history E g ops repo tr p ->
  exists h s, ca_history E g ops h s /\ server_dealings tr = module_dealings h /\ (forall ca d cache, p = Running ca d cache -> s = ca).
Proof.
  intros E g S ops repo tr p H. apply mirrors in H. destruct p as [st|ca d cache].
  - destruct H as (h & s & H & D & _). exists h, s. split; [exact H|]. split; [exact D|]. discriminate.
  - destruct (inside_dealings _ _ _ _ _ _ _ _ _ H) as (h & H' & D). exists h, ca. split; [exact H'|]. split; [exact D|]. intros ca' d' cache' Q. injection Q as -> _ _. reflexivity.
Qed.
Lemma process_certs : forall E g S (ops : store_ops S) repo tr ca d cache, server_history E g ops repo tr (Running ca d cache) ->
  exists u st w a b, tr = u ++ st :: w /\ is_start (p_ev st) /\ Forall (fun st => ~ is_start (p_ev st)) w /\
    ca_history E g ops (a ++ b) ca /\ Forall (fun st => ~ restarts (h_ev st)) b /\ server_dealings w = module_dealings b /\
    exists cs, announced b cs /\
      if repo then cache = [] /\ flat_map (fun st => published (p_outs st)) w = cs else cache = firstn 100 (rev cs).
Proof.
  intros E g S ops repo tr ca d cache H. apply mirrors in H. destruct H as (u & w & a & b & -> & H & D1 & D2 & FR & NR & (u' & st & -> & IS) & NS & PR & CA & PU).
  exists u', st, w, a, b. split; [rewrite <- app_assoc; reflexivity|]. split; [exact IS|]. split; [exact NS|]. split; [exact H|]. split; [exact NR|]. split; [exact D2|].
  destruct (cache_holds _ _ _ _ _ _ _ H (or_intror FR) NR) as [(cs & AN) U]. exists cs. split; [exact AN|]. destruct repo.
  - split; [exact CA|]. rewrite (PU eq_refl). exact (repo_gets _ _ _ _ _ _ _ H NR cs AN).
  - rewrite CA. exact (U cs AN).
Qed.

(** ** The profile *)
Lemma running_at : forall E g S (ops : store_ops S) repo tr ca d cache, server_history E g ops repo tr (Running ca d cache) -> ca_at E g ops ca /\ ca_prof ca = Some d.
Proof.
  intros E g S ops repo tr ca d cache H. apply mirrors in H. destruct H as (u & w & a & b & _ & H & _ & _ & _ & _ & _ & _ & PR & _). split; [exact (history_at _ _ _ _ _ _ H)|exact PR].
Qed.
Definition made (E : env) (g : ca_cfg) (d : data) : Prop :=
  exists v, d_name d = profile_name g v /\ data_signed_by E d (cf_sk g) /\ info_encode E (cfp g) (cf_cert g) = Ok (d_content d).
Lemma made_profile : forall E g v d, profile_data E g None v = Ok d -> made E g d.
Proof.
  intros E g v d H. unfold profile_data in H. destruct (info_encode E (cfp g) (cf_cert g)) as [b| | |] eqn:Q; try discriminate. injection H as <-. exists v. split; [reflexivity|]. split; [reflexivity|]. exact Q.
Qed.
Lemma made_get : forall E g i es d, on_get_profile E g None i = (es, Ok d) -> made E g d.
Proof. intros E g i es d H. unfold on_get_profile in H. destruct (profile_data E g None (in_version i)) as [d'| | |] eqn:P; try discriminate. injection H as _ <-. exact (made_profile _ _ _ _ P). Qed.
Lemma kept_step : forall E g S (ops : store_ops S) repo ca d cache ev p os, pstep E g ops repo (Running ca d cache) ev = Some (p, os) -> (exists st, p = Down st) \/ exists ca' cache', p = Running ca' d cache'.
Proof.
  intros E g S ops repo ca d cache ev p os H. destruct ev as [key i|i x|i x n|]; try discriminate; cbn [pstep] in H; [..|injection H as <- _; eauto];
    destruct (on_interest E g ops ca i x) as [es [u| | |]]; try discriminate; injection H as <- _; eauto.
Qed.
Lemma start_step : forall E g S (ops : store_ops S) repo st ev p os, pstep E g ops repo (Down st) ev = Some (p, os) ->
  is_start ev /\ ((exists st', p = Down st') \/ exists ca d, p = Running ca d [] /\ made E g d /\ os = if repo then [ORepoProfile d] else []).
Proof.
  intros E g S ops repo st ev p os H. destruct ev as [key i|i x|i x n|]; try discriminate. split; [exists key, i; reflexivity|]. cbn [pstep ca_prof] in H.
  destruct (on_get_profile E g None i) as [es [d| | |]] eqn:G; try discriminate; injection H as <- <-; [|eauto]. right. eexists _, d. split; [reflexivity|]. split; [exact (made_get _ _ _ _ _ G)|reflexivity].
Qed.
(** The profile of the process is the one made at its start. *)
Lemma kept_steps : forall E g S (ops : store_ops S) repo p tr p', psteps E g ops repo p tr p' -> Forall (fun st => ~ is_start (p_ev st)) tr ->
  forall ca' d' cache', p' = Running ca' d' cache' -> exists ca cache, p = Running ca d' cache.
Proof.
  intros E g S ops repo p tr p' H. induction H as [p|p ev os p1 tr p2 ST H IH]; intros NS ca' d' cache' Q; [eauto|]. inversion NS as [|? ? N1 N2]; subst. cbn [p_ev] in N1.
  destruct (IH N2 _ _ _ eq_refl) as (ca1 & cache1 & ->). destruct p as [st|ca d cache].
  - destruct (start_step _ _ _ _ _ _ _ _ _ ST) as [IS _]. contradiction.
  - destruct (kept_step _ _ _ _ _ _ _ _ _ _ _ ST) as [(st & Q)|(ca2 & cache2 & Q)]; [discriminate|]. injection Q as <- <- <-. eauto.
Qed.
Lemma running_made : forall E g S (ops : store_ops S) repo tr ca d cache, server_history E g ops repo tr (Running ca d cache) -> made E g d.
Proof.
  intros E g S ops repo tr ca d cache [_ _ _ H]. revert ca d cache H. induction tr as [|st tr IH] using rev_ind; intros ca d cache H; [inversion H|].
  apply psteps_app in H as (m & H1 & H2). inversion H2 as [|? ev os p1 ? ? ST H3]; subst. inversion H3; subst. destruct m as [st|ca1 d1 cache1].
  - destruct (start_step _ _ _ _ _ _ _ _ _ ST) as [_ [(st' & Q)|(ca1 & d1 & Q & M & _)]]; [discriminate|]. injection Q as _ -> _. exact M.
  - destruct (kept_step _ _ _ _ _ _ _ _ _ _ _ ST) as [(st' & Q)|(ca2 & cache2 & Q)]; [discriminate|]. injection Q as -> -> ->. exact (IH _ _ _ H1).
Qed.
Lemma process_profile : forall E g S (ops : store_ops S) repo tr ca d cache, server_history E g ops repo tr (Running ca d cache) ->
  (exists v, d_name d = profile_name g v /\ data_signed_by E d (cf_sk g) /\ info_encode E (cfp g) (cf_cert g) = Ok (d_content d)) /\
  exists u st0 ev os0 ca0 cache0 w, tr = u ++ SStep st0 ev os0 (Running ca0 d cache0) :: w /\ is_start ev /\ Forall (fun st => ~ is_start (p_ev st)) w /\
    os0 = if repo then [ORepoProfile d] else [].
Proof.
  intros E g S ops repo tr ca d cache H. split; [exact (running_made _ _ _ _ _ _ _ _ _ H)|].
  destruct (process_certs _ _ _ _ _ _ _ _ _ H) as (u & st & w & a & b & -> & IS & NS & _). destruct H as [_ _ _ H]. apply psteps_app in H as (m & H1 & H2).
  inversion H2 as [|? ev os p1 ? ? ST H3]; subst. cbn [p_ev] in IS. destruct (kept_steps _ _ _ _ _ _ _ _ H3 NS _ _ _ eq_refl) as (ca0 & cache0 & ->).
  destruct m as [st|ca1 d1 cache1]; [|destruct IS as (k & i & ->); discriminate ST]. exists u, (Down st), ev, os, ca0, cache0, w. split; [reflexivity|]. split; [exact IS|]. split; [exact NS|].
  destruct (start_step _ _ _ _ _ _ _ _ _ ST) as [_ [(st' & Q)|(ca1 & d1 & Q & M & O)]]; [discriminate|]. injection Q as _ -> _. exact O.
Qed.
Lemma process_metadata : forall E g S (ops : store_ops S) repo tr ca d cache i x, server_history E g ops repo tr (Running ca d cache) -> addressed g VInfo (i_name x) ->
  exists os m v, pstep E g ops repo (Running ca d cache) (PvInterest i x) = Some (Running ca d cache, os) /\ module_packets os = [m] /\
    d_name d = profile_name g v /\ d_content m = name_wire (p_prefix (cfp g) ++ [gc (bs "CA"); gc (bs "INFO"); version_comp v]) /\
    d_name m = p_prefix (cfp g) ++ [gc (bs "CA"); gc (bs "INFO"); Tlv T_Keyword (bs "metadata"); version_comp (in_mversion i); Tlv T_Segment (nni_enc 0)].
Proof.
  intros E g S ops repo tr ca d cache i x H AD. destruct (running_at _ _ _ _ _ _ _ _ _ H) as [A P].
  assert (Q : exists m, on_interest E g ops ca i x = ([EPut m], Ok tt)).
  { rewrite (on_interest_at E g S ops _ ca i x AD). cbn [handle]. unfold on_discovery, on_get_profile, profile_data. rewrite P. eexists. reflexivity. }
  destruct Q as (m & Q). destruct (discovery_reply _ _ _ _ _ _ _ _ (at_reach _ _ _ _ A) AD Q) as (d' & m' & v & _ & PM & DN & _ & P' & C & _ & N). injection PM as <-.
  assert (d' = d) by (cbn in P'; congruence). subst d'. eexists _, m, v. cbn [pstep]. rewrite Q.
  split; [unfold cache_after; destruct repo; reflexivity|]. split; [rewrite module_app, filter_module; reflexivity|]. auto.
Qed.
Lemma profile_unaddressed : forall g v n w, begins n (profile_name g v) -> ~ addressed g w n.
Proof.
  intros g v n w [r H] [rest A]. rewrite A, <- !app_assoc in H. unfold profile_name in H. apply app_inv_head in H. destruct w; cbn in H; discriminate H.
Qed.
Lemma process_fetch : forall E g S (ops : store_ops S) tr ca d cache i x, server_history E g ops false tr (Running ca d cache) ->
  i_name x = d_name d -> pstep E g ops false (Running ca d cache) (PvInterest i x) = Some (Running ca d cache, [OServed (SProfile d)]).
Proof.
  intros E g S ops tr ca d cache i x H Q. destruct (running_made _ _ _ _ _ _ _ _ _ H) as (v & N & _). cbn [pstep].
  destruct (on_interest_cases E g S ops ca i x) as [[_ O]|(w & AD & _)].
  - rewrite O. unfold filter_outs. rewrite Q. assert (P1 : is_prefix (p_prefix (cfp g)) (d_name d) = true) by (rewrite N; apply is_prefix_app). rewrite P1.
    unfold serve. assert (P2 : is_prefix (d_name d) (d_name d) = true) by (apply is_prefix_iff; exists []; symmetry; apply app_nil_r). rewrite P2. reflexivity.
  - destruct (profile_unaddressed g v (i_name x) w); [|exact AD]. exists []. rewrite Q, N. symmetry. apply app_nil_r.
Qed.

(** ** Answers to one Interest *)
Lemma filter_cases : forall E g repo d cache x, filter_outs E g repo d cache x = [] \/
  (filter_outs E g repo d cache x = [OServed (SProfile d)] /\ begins (i_name x) (d_name d)) \/
  exists c, filter_outs E g repo d cache x = [OServed (SCert c)] /\ In c cache /\ begins (i_name x) (full_name E c).
Proof.
  intros E g repo d cache x. unfold filter_outs. destruct repo; [auto|]. destruct (is_prefix _ _); [|auto]. unfold serve. destruct (is_prefix (i_name x) (d_name d)) eqn:P.
  - right. left. split; [reflexivity|]. apply is_prefix_iff, P.
  - destruct (find _ cache) as [c|] eqn:F; [|auto]. apply find_some in F as [IN P']. right. right. exists c. split; [reflexivity|]. split; [exact IN|]. apply is_prefix_iff, P'.
Qed.
Lemma pstep_interest : forall E g S (ops : store_ops S) repo ca d cache i x p os, pstep E g ops repo (Running ca d cache) (PvInterest i x) = Some (p, os) ->
  exists es o, on_interest E g ops ca i x = (es, o) /\ os = filter_outs E g repo d cache x ++ effect_outs repo es /\ packets E os = packets E (filter_outs E g repo d cache x) ++ map d_name (puts es).
Proof.
  intros E g S ops repo ca d cache i x p os H. cbn [pstep] in H. destruct (on_interest E g ops ca i x) as [es o] eqn:Q. exists es, o. split; [reflexivity|].
  assert (os = filter_outs E g repo d cache x ++ effect_outs repo es) by (destruct o; try discriminate; congruence). subst os. split; [reflexivity|]. rewrite packets_app, effect_packets. reflexivity.
Qed.
Lemma process_single : forall E g S (ops : store_ops S) repo tr ca d cache i x p os, server_history E g ops repo tr (Running ca d cache) ->
  pstep E g ops repo (Running ca d cache) (PvInterest i x) = Some (p, os) ->
  (length (packets E os) <= 1)%nat \/ exists v c, addressed g v (i_name x) /\ In c cache /\ begins (i_name x) (full_name E c).
Proof.
  intros E g S ops repo tr ca d cache i x p os H ST. destruct (pstep_interest _ _ _ _ _ _ _ _ _ _ _ _ ST) as (es & o & OI & _ & ->).
  destruct (running_made _ _ _ _ _ _ _ _ _ H) as (v & N & _).
  destruct (interest_puts _ _ _ _ _ _ _ _ _ OI) as [Q|(m & Q & _)]; rewrite Q.
  - left. cbn [map]. rewrite app_nil_r. destruct (filter_cases E g repo d cache x) as [F|[[F _]|(c & F & _)]]; rewrite F; cbn; lia.
  - assert (AD : exists w, addressed g w (i_name x)).
    { destruct (on_interest_cases E g S ops ca i x) as [[_ O]|(w & AD & _)]; [rewrite O in OI; injection OI as <- <-; discriminate Q|eauto]. }
    destruct AD as (w & AD). destruct (filter_cases E g repo d cache x) as [F|[[F B]|(c & F & IN & B)]]; [rewrite F; cbn; left; lia| |right; exists w, c; auto].
    rewrite N in B. destruct (profile_unaddressed g v _ w B AD).
Qed.
Lemma process_matches : forall E g S (ops : store_ops S) repo tr ca d cache i x p os n, server_history E g ops repo tr (Running ca d cache) ->
  pstep E g ops repo (Running ca d cache) (PvInterest i x) = Some (p, os) -> In n (packets E os) ->
  begins (i_name x) n \/ exists c rest, i_name x = p_prefix (cfp g) ++ [gc (bs "CA"); gc (bs "INFO"); Tlv 32 (bs "metadata")] ++ c :: rest.
Proof.
  intros E g S ops repo tr ca d cache i x p os n H ST IN. destruct (pstep_interest _ _ _ _ _ _ _ _ _ _ _ _ ST) as (es & o & OI & OS & PK). rewrite PK in IN. apply in_app_or in IN as [IN|IN].
  - left. destruct (filter_cases E g repo d cache x) as [F|[[F B]|(c & F & _ & B)]]; rewrite F in IN; cbn in IN; [destruct IN|destruct IN as [<-|[]]; exact B..].
  - destruct (interest_puts _ _ _ _ _ _ _ _ _ OI) as [Q|(m & Q & NA)]; rewrite Q in IN; [destruct IN|]. destruct IN as [<-|[]].
    destruct NA as [->|AD]; [left; exists []; symmetry; apply app_nil_r|].
    destruct (process_metadata _ _ _ _ _ _ _ _ _ i x H AD) as (os' & m' & v & ST' & MP & _ & _ & NM). rewrite ST' in ST. injection ST as _ ->.
    assert (m' = m) by (rewrite OS, module_app, filter_module, effect_module, Q in MP; cbn in MP; congruence). subst m'. destruct AD as (rest & AD). destruct rest as [|c rest].
    + left. exists [version_comp (in_mversion i); Tlv T_Segment (nni_enc 0)]. rewrite AD, NM, app_nil_r, <- !app_assoc. reflexivity.
    + right. exists c, rest. exact AD.
Qed.
Lemma process_ends : forall E g S (ops : store_ops S) repo tr ca d cache i x st os, server_history E g ops repo tr (Running ca d cache) ->
  pstep E g ops repo (Running ca d cache) (PvInterest i x) = Some (Down st, os) ->
  (exists rt, (rt = RT_NEW \/ rt = RT_REVOKE) /\ addressed g (verb_of rt) (i_name x) /\ new_throws E g i rt (ca_idkey ca) x) \/
  (exists id r, names_request g id x /\ pending ops ca id = Some r /\ signed_by E x (public_key (rq_cert r))).
Proof.
  intros E g S ops repo tr ca d cache i x st os H ST. pose proof ST as ST'. cbn [pstep] in ST. destruct (on_interest E g ops ca i x) as [es [u| | |]] eqn:OI; try discriminate.
  apply throws_only in OI as [(rt & RT & AD & _ & T)|[C|AD]]; [left; eauto|right; exact C|].
  destruct (process_metadata _ _ _ _ _ _ _ _ _ i x H AD) as (os' & m & v & Q & _). rewrite Q in ST'. discriminate ST'.
Qed.
Lemma process_repo : forall E g S (ops : store_ops S) ca d cache i x p os, pstep E g ops true (Running ca d cache) (PvInterest i x) = Some (p, os) ->
  packets E os = map d_name (module_packets os) /\ ((forall v, ~ addressed g v (i_name x)) -> os = []).
Proof.
  intros E g S ops ca d cache i x p os H. destruct (pstep_interest _ _ _ _ _ _ _ _ _ _ _ _ H) as (es & o & OI & -> & PK). split.
  - rewrite PK, module_app, filter_module, effect_module. reflexivity.
  - intros NA. destruct (on_interest_cases E g S ops ca i x) as [[_ O]|(w & AD & _)]; [|destruct (NA w AD)]. rewrite O in OI. injection OI as <- _. reflexivity.
Qed.
