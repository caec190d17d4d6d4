(** C103: the mails a CA sends. *)
From Verif Require Export Spec_Mails TraceCounts.
From Coq Require Import Lia.
Local Open Scope N_scope.

Lemma email_in : forall em l cmd, In (EEmail cmd) (email_effs em ++ l) -> ~ In (EEmail cmd) l -> em = Some cmd.
Proof. intros [c|] l cmd IN N; cbn in IN; [destruct IN as [Q|IN]; [congruence|contradiction]|contradiction]. Qed.
Lemma interest_mail : forall E g S (ops : store_ops S) s i x es o cmd, on_interest E g ops s i x = (es, o) -> In (EEmail cmd) es ->
  exists id r params dv cs, names_request g id x /\ pending ops s id = Some r /\ signed_by E x (public_key (rq_cert r)) /\ opened E x r params (bs "email") dv /\
    rq_status r = ST_BEFORE /\ starts E (cf_chal g) i params (set_div dv r) (bs "email") cs (Some cmd) /\
    (es = [EEmail cmd] \/ exists r3 d, es = [EEmail cmd; EUpdate r3; EPut d; ECallback r3]).
Proof.
  intros E g S ops s i x es o cmd H IN. destruct (only_challenge E g S ops s i x es o _ H IN I) as (id & r & N & P).
  rewrite (on_interest_at E g S ops VChallenge s i x (names_addressed g x id N)) in H. cbn [handle] in H.
  destruct (on_challenge_cases E g (s_get ops (ca_store s)) i x) as [(r' & (id' & CI & G) & CO)|[(NF & NU & info & _ & Q)|(U & Q)]].
  - apply (challenge_id_names g x id' (names_addressed g x id N)) in CI. destruct (names_same _ _ _ _ N CI). change (pending ops s id = Some r') in G. rewrite P in G. injection G as <-. rewrite H in CO.
    exists id, r. inversion CO; subst; try (cbn [In] in IN; repeat (destruct IN as [IN|IN]; [discriminate|]); destruct IN; fail).
    + apply email_in in IN; [|intros Q; cbn in Q; repeat (destruct Q as [Q|Q]; [discriminate|]); exact Q]. subst em.
      match goal with M : moves _ _ _ _ _ _ _ _ |- _ => destruct M as [[SB STT]|(_ & Q & _)]; [|discriminate] end.
      assert (ty = bs "email") by (inversion STT; reflexivity). subst ty.
      exists params, dv, cs. repeat (split; [assumption|]). right. eexists. eexists. reflexivity.
    + rewrite <- (app_nil_r (email_effs em)) in IN. apply email_in in IN; [|intros []]. subst em.
      match goal with M : moves _ _ _ _ _ _ _ _ |- _ => destruct M as [[SB STT]|(_ & Q & _)]; [|discriminate] end.
      assert (ty = bs "email") by (inversion STT; reflexivity). subst ty.
      exists params, dv, cs. repeat (split; [assumption|]). left. reflexivity.
  - rewrite Q in H. injection H as <- <-. destruct IN as [IN|[]]. discriminate.
  - rewrite Q in H. injection H as <- <-. destruct IN.
Qed.
Lemma step_mail : forall E g S (ops : store_ops S) s ev s' es cmd, step E g ops s ev = Some (s', es) -> In (EEmail cmd) es ->
  exists i x id r params dv cs, ev_interest ev = Some (i, x) /\ names_request g id x /\ pending ops s id = Some r /\ signed_by E x (public_key (rq_cert r)) /\
    opened E x r params (bs "email") dv /\ rq_status r = ST_BEFORE /\ starts E (cf_chal g) i params (set_div dv r) (bs "email") cs (Some cmd) /\
    exists rest, es = EEmail cmd :: rest /\ ~ Exists is_mail rest.
Proof.
  intros E g S ops s ev s' es cmd ST IN.
  assert (NM : forall n r3 d, ~ Exists is_mail (firstn n [EUpdate r3; EPut d; ECallback r3])).
  { intros n r3 d Q. apply Exists_exists in Q as (e & I1 & M). assert (I2 : In e [EUpdate r3; EPut d; ECallback r3]) by (rewrite <- (firstn_skipn n); apply in_or_app; auto).
    cbn in I2. repeat (destruct I2 as [<-|I2]; [exact M|]). exact I2. }
  destruct ev as [i x|i x n key|key|i]; cbn [step] in ST.
  - destruct (on_interest E g ops s i x) as [es' o] eqn:OI. assert (EQ : es' = es) by (destruct o; inversion ST; reflexivity). subst es'.
    destruct (interest_mail E g S ops s i x es o cmd OI IN) as (id & r & params & dv & cs & N & P & SB & OP & B & STT & SH). exists i, x, id, r, params, dv, cs. repeat (split; [assumption || reflexivity|]).
    destruct SH as [->|(r3 & d & ->)]; eexists; (split; [reflexivity|]); [intros Q; inversion Q|exact (NM 3%nat r3 d)].
  - destruct (on_interest E g ops s i x) as [es' o] eqn:OI. assert (EQ : es = firstn n es') by (destruct o; inversion ST; reflexivity).
    assert (IN' : In (EEmail cmd) es') by (rewrite <- (firstn_skipn n es'); apply in_or_app; left; rewrite <- EQ; exact IN).
    destruct (interest_mail E g S ops s i x es' o cmd OI IN') as (id & r & params & dv & cs & N & P & SB & OP & B & STT & SH). exists i, x, id, r, params, dv, cs. repeat (split; [assumption || reflexivity|]).
    destruct n as [|n]; [rewrite EQ in IN; destruct IN|]. destruct SH as [->|(r3 & d & ->)]; rewrite EQ; cbn [firstn]; eexists; (split; [reflexivity|]); [destruct n; intros Q; inversion Q|exact (NM n r3 d)].
  - injection ST as <- <-. destruct IN.
  - destruct (on_get_profile E g (ca_prof s) i) as [es' o] eqn:O. unfold on_get_profile in O.
    assert (EQ : es' = es) by (destruct o; inversion ST; reflexivity). subst es'.
    destruct (profile_data E g (ca_prof s) (in_version i)); injection O as <- <-; try (destruct IN; fail).
    destruct (ca_prof s); cbn [app In] in IN; repeat (destruct IN as [IN|IN]; [discriminate|]); destruct IN.
Qed.

Lemma mail_cause : forall E g S (ops : store_ops S) tr st s cmd, ca_history E g ops (tr ++ [st]) s -> In (EEmail cmd) (h_effs st) ->
  exists id r i params addr code a1 new a2 rt, pending ops (h_pre st) id = Some r /\ rq_cs r = None /\
    tr = a1 ++ new :: a2 /\ accepts E g id rt new (rq_key r) (rq_cert r) /\ no_add id a2 /\
    asks E g id (rq_key r) (rq_cert r) st i params (bs "email") /\ get T_ParameterValue params = Some addr /\ gen_code (in_words i) = Ok code /\
    cmd = email_command E (cc_script (cf_chal g)) (t_val addr) code r /\ exists rest, h_effs st = EEmail cmd :: rest /\ ~ Exists is_mail rest.
Proof.
  intros E g S ops tr st s cmd H IN. apply history_snoc in H as (H & ST & ->). pose proof (history_at _ _ _ _ _ _ H) as A.
  destruct (step_mail E g S ops _ _ _ _ cmd ST IN) as (i & x & id & r & params & dv & cs & EV & N & P & SB & OP & B & STT & SH). apply ev_handles in EV.
  destruct (pending_live E g S ops _ id r A P) as [ID LV]. destruct (has_origin S E g ops tr _ id r H P) as (a1 & new & a2 & Q & AC & NA & _).
  inversion STT as [|code addr GC GA|]; subst. exists (rq_id r), r, i, params, addr, code, a1, new, a2, (rq_type r).
  split; [exact P|]. split; [destruct LV as [(_ & _ & L & _)|(L & _)]; [exact L|rewrite B in L; discriminate L]|]. split; [reflexivity|]. split; [exact AC|]. split; [exact NA|].
  split; [exact (opened_asks S E g _ st i x r params _ dv EV N eq_refl SB OP)|]. split; [exact GA|]. split; [exact GC|]. split; [reflexivity|exact SH].
Qed.

(** ** Counting *)
Lemma chal_encode_cs : forall E r issued fwd rnd o r3, chal_encode E r issued fwd rnd = (o, r3) -> rq_cs r3 = rq_cs r.
Proof.
  intros E r issued fwd rnd o r3 H. unfold chal_encode in H. destruct (chal_plain r issued fwd); [|injection H as _ <-; reflexivity..].
  destruct (encode_aes E (rq_key r) (enc_tlvs a) (rq_id r) (rq_eiv r) rnd). injection H as _ <-. reflexivity.
Qed.
Lemma unmailed_before : forall E g S (ops : store_ops S) s ev s' es id r', ca_at E g ops s -> step E g ops s ev = Some (s', es) -> pending ops s' id = Some r' -> rq_cs r' = None ->
  (exists r, pending ops s id = Some r /\ rq_cs r = None /\ ~ exists r3, In (EUpdate r3) es /\ exists i x, ev_interest ev = Some (i, x) /\ names_request g id x) \/ exists r, In (EAdd r) es /\ rq_id r = id.
Proof.
  intros E g S ops s ev s' es id r' A ST P C. destruct (at_id_step S E g ops _ _ _ _ A ST) as (nrm & NO & IDS). destruct (IDS id) as [m1 M Z].
  destruct Z as [Z|[_ Z]]; [|congruence]. rewrite P in Z. subst m1.
  inversion M as [es0 m F NN Q1 Q2 Q3|i0 x0 es0 info FI EV0 N0 CU|i0 x0 rt idkey peer c tail EV0 RT ID0 ADM CT|i0 x0 r0 es0 m EV0 N0 IDR CS].
  - left. exists r'. split; [exact Q3|]. split; [exact C|]. intros (r3 & _ & i & x & EV & N). exact (NN i x EV N).
  - right. exists (created E g i0 rt id peer c). split; [left; reflexivity|reflexivity].
  - subst. inversion CS; subst.
    + left. exists r'. split; [reflexivity|]. split; [exact C|]. intros (r3 & IN & _). match goal with F : Forall is_email _ |- _ => rewrite Forall_forall in F; exact (F _ IN) end.
    + left. exists r'. split; [reflexivity|]. split; [exact C|]. intros (r3 & IN & _). destruct IN as [Q|[]]. discriminate.
    + exfalso. match goal with CE : chal_encode _ _ _ _ _ = _ |- _ => pose proof (chal_encode_cs _ _ _ _ _ _ _ CE) as Q end. cbn in Q.
      destruct (NO r3) as [X|X]; rewrite X in C; [congruence|]. unfold db_stored in C. rewrite Q in C. discriminate C.
    + left. exists r'. split; [reflexivity|]. split; [exact C|]. intros (r3 & IN & _). destruct IN as [Q|[]]. discriminate.
Qed.

Lemma adds_one : forall E g S (ops : store_ops S) s ev s' es r1 r2, ca_at E g ops s -> step E g ops s ev = Some (s', es) -> In (EAdd r1) es -> In (EAdd r2) es -> rq_id r1 = rq_id r2.
Proof.
  intros E g S ops s ev s' es r1 r2 A ST I1 I2. destruct (at_id_step S E g ops _ _ _ _ A ST) as (nrm & NO & IDS). destruct (IDS (rq_id r1)) as [m1 M Z].
  inversion M as [es0 m F NN Q1 Q2 Q3|i0 x0 es0 info FI EV0 N0 CU|i0 x0 rt idkey peer c tail EV0 RT ID0 ADM CT|i0 x0 r0 es0 m EV0 N0 IDR CS]; subst.
  - rewrite Forall_forall in F. destruct (F _ I1 eq_refl).
  - pose proof (in_cut _ _ _ CU I1) as [Q|[]]. discriminate.
  - destruct I2 as [Q|I2]; [injection Q as <-; reflexivity|]. pose proof (in_cut _ _ _ CT I2) as [Q|[Q|[]]]; discriminate.
  - destruct (chal_no_add _ _ _ _ _ _ _ _ _ CS I1).
Qed.
Lemma tally_snoc : forall A (P : A -> Prop) l a n, tally P (l ++ [a]) n -> exists m, tally P l m /\ (P a /\ n = Datatypes.S m \/ ~ P a /\ n = m).
Proof.
  intros A P l a. induction l as [|b l IH]; intros n H; cbn [app] in H; inversion H as [|? ? k PB T|? ? k NB T]; subst.
  - inversion T; subst. exists 0%nat. split; [constructor|auto].
  - inversion T; subst. exists 0%nat. split; [constructor|auto].
  - destruct (IH _ T) as (m & T' & [[PA ->]|[NA ->]]); exists (Datatypes.S m); (split; [constructor; assumption|auto]).
  - destruct (IH _ T) as (m & T' & [[PA ->]|[NA ->]]); exists m; (split; [constructor 3; assumption|auto]).
Qed.
Lemma count_mails : forall E g S (ops : store_ops S) (these : bytes -> Prop) tr s m a f, ca_history E g ops tr s ->
  tally (fun st => exists id, these id /\ mails g id st) tr m -> tally (fun st => exists id, these id /\ adds id st) tr a -> tally (fun st => exists id, these id /\ mails_in_vain g id st) tr f ->
  exists open : list bytes, (forall id r, these id -> pending ops s id = Some r -> rq_cs r = None -> In id open) /\ (m + length open <= a + f)%nat.
Proof.
  intros E g S ops these tr. induction tr as [|st tr IH] using rev_ind; intros s m a f H TM TA TF.
  - inversion TM; subst. inversion TA; subst. inversion TF; subst. exists []. split; [|cbn; lia]. intros id r _ P _. destruct H as [LC _ B (key & ST)]. inversion ST; subst.
    destruct (back_end_laws E S ops B LC) as (inv & nrm & SL). destruct (init_inv E g ops inv nrm SL key) as [_ Z]. unfold pending in P. unfold ca_get in Z. rewrite Z in P. discriminate P.
  - apply tally_snoc in TM as (m' & TM & M). apply tally_snoc in TA as (a' & TA & AD). apply tally_snoc in TF as (f' & TF & F). apply history_snoc in H as (H & ST & ->). pose proof (history_at _ _ _ _ _ _ H) as A.
    destruct (IH _ _ _ _ H TM TA TF) as (open & COV & LE). clear IH.
    assert (KEEP : forall id r', pending ops (h_post st) id = Some r' -> rq_cs r' = None -> (exists r, pending ops (h_pre st) id = Some r /\ rq_cs r = None) \/ adds id st).
    { intros id r' P C. destruct (unmailed_before E g S ops _ _ _ _ id r' A ST P C) as [(r & P1 & C1 & _)|AA]; [left; eauto|right; exact AA]. }
    destruct AD as [[(idn & IDN & AN) ->]|[NA ->]].
    + assert (NM : ~ exists id, these id /\ mails g id st).
      { intros (id & _ & i & x & cmd & _ & _ & IN). destruct AN as (r & IA & _). destruct (step_mail E g S ops _ _ _ _ cmd ST IN) as (i1 & x1 & id1 & r1 & params & dv & cs & EV & N & P & SB & OP & B & STT & SH).
        destruct (pending_live E g S ops _ id1 r1 A P) as [ID LV]. destruct (at_id_step S E g ops _ _ _ _ A ST) as (nrm & NO & IDS). destruct (IDS id1) as [m1 MM Z]. rewrite P in MM.
        inversion MM as [es0 mm FF NN Q1 Q2 Q3|i0 x0 es0 info FI EV0 N0 CU|i0 x0 rt idkey peer c tail EV0 RT ID0 ADM CT|i0 x0 r0 es0 mm EV0 N0 IDR CS]; [exact (NN i1 x1 EV N)|].
        exact (chal_no_add _ _ _ _ _ _ _ _ r CS IA). }
      destruct M as [[MM _]|[_ ->]]; [destruct (NM MM)|]. exists (idn :: open). split; [|destruct F as [[_ ->]|[_ ->]]; cbn [length]; lia].
      intros id r' T P C. destruct (KEEP id r' P C) as [(r & P1 & C1)|AA]; [right; eauto|]. left. destruct AN as (ra & IA & <-), AA as (rb & IB & <-). exact (adds_one E g S ops _ _ _ _ ra rb A ST IA IB).
    + destruct M as [[MM ->]|[NM ->]].
      * destruct MM as (id & T & i & x & cmd & HD & N & IN). destruct (step_mail E g S ops _ _ _ _ cmd ST IN) as (i1 & x1 & id1 & r1 & params & dv & cs & EV & N1 & P & SB & OP & B & STT & SH).
        apply ev_handles in HD. rewrite HD in EV. injection EV as <- <-. destruct (names_same _ _ _ _ N N1). destruct (pending_live E g S ops _ id r1 A P) as [ID LV].
        assert (C1 : rq_cs r1 = None) by (destruct LV as [(_ & _ & L & _)|(L & _)]; [exact L|rewrite B in L; discriminate L]).
        destruct F as [[_ ->]|[NV ->]].
        -- exists open. split; [|lia]. intros id' r' T' P' C'. destruct (KEEP id' r' P' C') as [(r & P2 & C2)|AA]; [eauto|destruct NA; eauto].
        -- exists (remove (list_eq_dec Byte.byte_eq_dec) id open). split.
           ++ intros id' r' T' P' C'. destruct (unmailed_before E g S ops _ _ _ _ id' r' A ST P' C') as [(r & P2 & C2 & NU)|AA]; [|destruct NA; exists id'; auto].
              apply in_in_remove; [|eauto]. intros ->. apply NV. exists id. split; [exact T|]. split; [exists i, x, cmd; split; [apply ev_handles; exact HD|auto]|].
              intros r3 I3. apply NU. exists r3. split; [exact I3|]. exists i, x. auto.
           ++ apply Nat.le_trans with (m' + length open)%nat; [|exact LE]. rewrite Nat.add_succ_comm. apply Nat.add_le_mono_l. exact (remove_length_lt (list_eq_dec Byte.byte_eq_dec) open id (COV id r1 T P C1)).
      * exists open. split; [|destruct F as [[_ ->]|[_ ->]]; lia]. intros id' r' T' P' C'. destruct (KEEP id' r' P' C') as [(r & P2 & C2)|AA]; [eauto|destruct NA; eauto].
Qed.
Lemma mails_bounded : forall E g S (ops : store_ops S) (these : bytes -> Prop) tr s m a f, ca_history E g ops tr s ->
  tally (fun st => exists id, these id /\ mails g id st) tr m -> tally (fun st => exists id, these id /\ adds id st) tr a -> tally (fun st => exists id, these id /\ mails_in_vain g id st) tr f ->
  (m <= a + f)%nat.
Proof. intros E g S ops these tr s m a f H TM TA TF. destruct (count_mails E g S ops these tr s m a f H TM TA TF) as (open & _ & LE). lia. Qed.
