(** Proofs of the statements about single Interests. *)
From Verif Require Export TraceFacts PolicyFacts.
Local Open Scope N_scope.

Lemma plain_fits : forall code info, plain_error code info -> code <> NO_ERROR /\ code <= 8 /\ fits info.
Proof. intros code info (A & B & C). split; [exact A|]. split; [exact B|apply short_fits; exact C]. Qed.
Lemma error_data_reply : forall E g x code info, code <> NO_ERROR /\ code <= 8 /\ fits info -> error_reply E g x code (error_data E g (i_name x) code info).
Proof.
  intros E g x code info (_ & A & B). split; [reflexivity|]. split; [reflexivity|]. exists info. apply err_roundtrip; [|assumption]. apply (N.le_lt_trans _ _ _ A). reflexivity.
Qed.
Lemma ok_step : forall E g S (ops : store_ops S) s i x es, on_interest E g ops s i x = (es, Ok tt) ->
  step E g ops s (EvInterest i x) = Some (apply_effs ops es s, es).
Proof. intros E g S ops s i x es H. cbn [step]. rewrite H. reflexivity. Qed.

(** What each Interest does to the stored requests, from [interest_step]. *)

(** ** NEW and REVOKE *)
Lemma on_interest_new : forall E g S (ops : store_ops S) s i rt x, rt = RT_NEW \/ rt = RT_REVOKE -> addressed g (verb_of rt) (i_name x) ->
  on_interest E g ops s i x =
  on_new E g (fun r => match s_add ops (ca_store s) r with Some _ => true | None => false end) (ca_idkey s) i rt x.
Proof. intros E g S ops s i rt x R A. rewrite (on_interest_at E g S ops _ s i x A). destruct R as [->| ->]; reflexivity. Qed.

Lemma created_storable : forall E g i rt id x peer c, codec_laws E -> name_fits (p_prefix (cfp g)) -> rt = RT_NEW \/ rt = RT_REVOKE ->
  carries E rt x peer c -> storable E (created E g i rt id peer c).
Proof.
  intros E g i rt id x peer c LC NF RT C. destruct (carries_storable E rt x peer c LC C) as (W1 & W2 & W3).
  unfold storable, created. cbn [rq_prefix rq_cert rq_type rq_status rq_ctype rq_cs].
  split; [exact NF|]. split; [exact W1|]. split; [exact W2|]. split; [exact W3|]. split; [destruct RT as [->| ->]; discriminate|].
  split; [discriminate|exact I].
Qed.
Lemma add_pending : forall E g S (ops : store_ops S) s i rt id x peer c, ca_at E g ops s -> rt = RT_NEW \/ rt = RT_REVOKE -> carries E rt x peer c ->
  (match s_add ops (ca_store s) (created E g i rt id peer c) with Some _ => true | None => false end = true <-> pending ops s id = None).
Proof.
  intros E g S ops s i rt id x peer c A RT C. destruct (ca_at_inv E g S ops s A) as (inv & nrm & SL & I & _).
  pose proof (created_storable E g i rt id x peer c (at_codec _ _ _ _ A) (at_prefix _ _ _ _ A) RT C) as ST. split.
  - intros H. unfold pending. destruct (s_get ops (ca_store s) id) eqn:G; [|reflexivity].
    rewrite (sl_dup E ops inv nrm SL (ca_store s) (created E g i rt id peer c) I) in H; [discriminate|]. cbn [created rq_id]. congruence.
  - intros H. destruct (sl_add E ops inv nrm SL (ca_store s) (created E g i rt id peer c) I ST H) as (st' & Q & _). rewrite Q. reflexivity.
Qed.

Lemma new_accepted : forall E g S (ops : store_ops S) s i rt x peer c, ca_at E g ops s -> suffix_limit_sane g ->
  rt = RT_NEW \/ rt = RT_REVOKE -> addressed g (verb_of rt) (i_name x) ->
  let id := request_id_of E (ca_idkey s) (c_name c) in
  admissible E g i rt id x peer c -> pending ops s id = None ->
  exists s', step E g ops s (EvInterest i x) =
    Some (s', [EAdd (created E g i rt id peer c); EPut (new_reply E g i x id); ECallback (created E g i rt id peer c)]) /\
    pending ops s' id = Some (created E g i rt id peer c) /\ forall id', id' <> id -> pending ops s' id' = pending ops s id'.
Proof.
  intros E g S ops s i rt x peer c A SANE RT AD id ADM P.
  pose proof (on_interest_new E g S ops s i rt x RT AD) as OI.
  rewrite (on_new_accepts E g _ (ca_idkey s) i rt x peer c SANE ADM) in OI;
    [|apply (add_pending E g S ops s i rt id x peer c A RT (ad_params _ _ _ _ _ _ _ _ ADM)), P].
  fold id in OI. rewrite (ok_step E g S ops s i x _ OI). eexists. split; [reflexivity|].
  destruct (ca_at_inv E g S ops s A) as (inv & nrm & SL & I & _). set (r := created E g i rt id peer c).
  pose proof (created_storable E g i rt id x peer c (at_codec _ _ _ _ A) (at_prefix _ _ _ _ A) RT (ad_params _ _ _ _ _ _ _ _ ADM)) as ST.
  destruct (sl_add E ops inv nrm SL (ca_store s) r I ST P) as (st' & Q & _ & GQ). cbn [apply_effs fold_left apply_eff]. rewrite Q. cbn [ca_store].
  unfold pending. cbn [ca_store]. rewrite (nrm_created E ops inv nrm SL r eq_refl) in GQ. split.
  - rewrite GQ. change (rq_id r) with id. rewrite bytes_eqb_refl. reflexivity.
  - intros id' N. rewrite GQ. change (rq_id r) with id. apply bytes_eqb_neq in N. rewrite N. reflexivity.
Qed.

(** Everything else: an error reply or an exception, and nothing changes. *)
Lemma refusal_mono : forall E g i rt idkey x code (P Q : bytes -> Prop),
  (forall peer c, carries E rt x peer c -> P (request_id_of E idkey (c_name c)) -> Q (request_id_of E idkey (c_name c))) ->
  refusal E g i rt idkey P x code -> refusal E g i rt idkey Q x code.
Proof. intros E g i rt idkey x code P Q PQ R. destruct R; [eapply RF_ca_expired|eapply RF_params|eapply RF_empty_key|eapply RF_bad_key|eapply RF_name|eapply RF_period|eapply RF_cert_signature|eapply RF_signature|eapply RF_revoke|eapply RF_duplicate]; eauto. Qed.

Lemma new_otherwise : forall E g S (ops : store_ops S) s i rt x, ca_at E g ops s -> suffix_limit_sane g ->
  rt = RT_NEW \/ rt = RT_REVOKE -> addressed g (verb_of rt) (i_name x) ->
  (forall peer c, let id := request_id_of E (ca_idkey s) (c_name c) in
     ~ (admissible E g i rt id x peer c /\ pending ops s id = None)) ->
  (exists d code, step E g ops s (EvInterest i x) = Some (s, [EPut d]) /\ error_reply E g x code d /\
     refusal E g i rt (ca_idkey s) (fun id => pending ops s id <> None) x code) \/
  (on_interest E g ops s i x = ([], Exn) /\ new_throws E g i rt (ca_idkey s) x).
Proof.
  intros E g S ops s i rt x A SANE RT AD NA.
  pose proof (on_interest_new E g S ops s i rt x RT AD) as OI.
  destruct (on_new E g _ (ca_idkey s) i rt x) as [es o] eqn:ON. pose proof ON as ON'.
  apply on_new_cases in ON as [(peer & c & ADM & AO & -> & ->)|[(code & info & -> & -> & PL & RF)|(-> & -> & T)]]; [..|exact RT].
  - exfalso. apply (NA peer c). split; [exact ADM|].
    apply (add_pending E g S ops s i rt _ x peer c A RT (ad_params _ _ _ _ _ _ _ _ ADM)), AO.
  - left. exists (error_data E g (i_name x) code info), code. rewrite (ok_step E g S ops s i x _ OI).
    split; [destruct s; reflexivity|]. split; [apply error_data_reply, plain_fits, PL|]. specialize (RF SANE). revert RF. apply refusal_mono.
    intros peer c C (peer' & c' & C' & EQ & F) P. rewrite EQ in P.
    apply (add_pending E g S ops s i rt _ x peer' c' A RT C') in P. rewrite <- EQ in P. rewrite F in P. discriminate.
  - right. split; [exact OI|exact T].
Qed.

Ltac other_type := match goal with A : ?rt = RT_NEW, B : ?rt = RT_REVOKE |- _ => exfalso; rewrite A in B; discriminate end.

(** Refusals are real: what is refused is not admissible. *)

(** ** A request in storage is not overwritten *)
Lemma stored_stays : forall E g S (ops : store_ops S) s ev s' es id r, ca_at E g ops s ->
  (exists i x rt, ev = EvInterest i x /\ (rt = RT_NEW \/ rt = RT_REVOKE) /\ addressed g (verb_of rt) (i_name x)) ->
  step E g ops s ev = Some (s', es) -> pending ops s id = Some r -> pending ops s' id = Some r.
Proof.
  intros E g S ops s ev s' es id r A (i & x & rt & -> & RT & AD) ST P.
  destruct (ca_at_inv E g S ops s A) as (inv & nrm & SL & I).
  destruct (step_ok E g ops inv nrm SL (at_codec _ _ _ _ A) (at_prefix _ _ _ _ A) s (EvInterest i x) s' es I ST) as [_ Q].
  specialize (Q id). destruct Q as [m1 M Z]. unfold pending in *. unfold ca_get in *.
  assert (NN : ~ names_request g id x).
  { intros N. apply names_addressed in N. pose proof (addressed_unique g _ _ _ AD N) as V. destruct RT as [->| ->]; discriminate. }
  destruct Z as [Z|Z]; [|destruct Z as [Z _]; destruct Z]. rewrite Z. rewrite P in M. inversion M as [es0 m0 F NM|i0 x0 es0 info FI EV N C| |i0 x0 r0 es0 m0 EV N]; subst; [reflexivity|..];
    cbn [ev_interest] in EV; injection EV as <- <-; contradiction.
Qed.
Lemma duplicate_answer : forall E g S (ops : store_ops S) s i rt x peer c, ca_at E g ops s -> suffix_limit_sane g ->
  rt = RT_NEW \/ rt = RT_REVOKE -> addressed g (verb_of rt) (i_name x) ->
  let id := request_id_of E (ca_idkey s) (c_name c) in
  admissible E g i rt id x peer c -> pending ops s id <> None ->
  exists d, step E g ops s (EvInterest i x) = Some (s, [EPut d]) /\ error_reply E g x INVALID_PARAMETER d.
Proof.
  intros E g S ops s i rt x peer c A SANE RT AD id ADM P.
  assert (U : forall p1 c1 p2 c2, carries E rt x p1 c1 -> carries E rt x p2 c2 -> p1 = p2 /\ c1 = c2).
  { intros p1 c1 p2 c2 C1 C2. apply carries_decode in C1; [|exact RT]. apply carries_decode in C2; [|exact RT]. rewrite C1 in C2. injection C2; auto. }
  destruct (new_otherwise E g S ops s i rt x A SANE RT AD) as [(d & code & ST & ER & RF)|[OI T]].
  - intros p' c' id' [ADM' P']. destruct (U _ _ _ _ (ad_params _ _ _ _ _ _ _ _ ADM) (ad_params _ _ _ _ _ _ _ _ ADM')) as [<- <-]; subst id'. contradiction.
  - exists d. split; [exact ST|]. destruct ADM as [(nb & na & V & VB) C NE US NP CP K].
    destruct RF as [nb' na' V' NV|N|c' C'|p' c' C' Z|p' c' C' N|p' c' nb' na' C' R V' N|p' c' C' R N|p' c' C' R N|p' c' C' R N|p' c' C' H];
      try exact ER; exfalso; try (destruct (U p' c' _ _ C' C) as [-> ->]; clear C').
    + rewrite V in V'. injection V' as <- <-. contradiction.
    + contradiction.
    + destruct CP as [(_ & (nbx & nax & W & PP) & _)|(R' & _)]; [|other_type]. rewrite W in V'. injection V' as <- <-. contradiction.
    + destruct CP as [(_ & _ & S1 & _)|(R' & _)]; [contradiction|other_type].
    + destruct CP as [(_ & _ & _ & S1)|(R' & _)]; [contradiction|other_type].
    + destruct CP as [(R' & _)|(_ & S1)]; [other_type|contradiction].
  - exfalso. destruct ADM as [(nb & na & V & VB) C NE US NP CP K]. destruct T as [T|p' c' C' R N|p' c' C' N].
    + congruence.
    + destruct (U _ _ _ _ C C') as [<- <-]. destruct CP as [(_ & (nb' & na' & W & PP) & _)|(R' & _)]; [congruence|other_type].
    + destruct (U _ _ _ _ C C') as [<- <-]. contradiction.
Qed.

(** ** Requests do not interfere *)
Lemma others_untouched : forall E g S (ops : store_ops S) s i x s' es id, ca_at E g ops s ->
  step E g ops s (EvInterest i x) = Some (s', es) -> ~ names_request g id x -> pending ops s id <> None ->
  pending ops s' id = pending ops s id.
Proof.
  intros E g S ops s i x s' es id A ST NN P.
  destruct (ca_at_inv E g S ops s A) as (inv & nrm & SL & I).
  destruct (step_ok E g ops inv nrm SL (at_codec _ _ _ _ A) (at_prefix _ _ _ _ A) s (EvInterest i x) s' es I ST) as [_ Q].
  specialize (Q id). destruct Q as [m1 M Z]. unfold pending in *. unfold ca_get in *. destruct Z as [Z|Z]; [|destruct Z as [Z _]; destruct Z]. rewrite Z.
  inversion M as [es0 m0 F NM|i0 x0 es0 info FI EV N C| |i0 x0 r0 es0 m0 EV N]; subst; try reflexivity.
  - congruence.
  - injection EV as <- <-. contradiction.
Qed.
Lemma bystanders : forall E g S (ops : store_ops S) s i x s' es, ca_at E g ops s -> 
  step E g ops s (EvInterest i x) = Some (s', es) ->
  ~ addressed g VNew (i_name x) -> ~ addressed g VRevoke (i_name x) -> ~ addressed g VChallenge (i_name x) ->
  forall id, pending ops s' id = pending ops s id.
Proof.
  intros E g S ops s i x s' es A ST N1 N2 N3 id.
  destruct (ca_at_inv E g S ops s A) as (inv & nrm & SL & I).
  destruct (step_ok E g ops inv nrm SL (at_codec _ _ _ _ A) (at_prefix _ _ _ _ A) s (EvInterest i x) s' es I ST) as [_ Q].
  specialize (Q id). destruct Q as [m1 M Z]. unfold pending in *. unfold ca_get in *. destruct Z as [Z|Z]; [|destruct Z as [Z _]; destruct Z]. rewrite Z.
  inversion M as [es0 m0 F NM|i0 x0 es0 info FI EV N C|i0 x0 rt ik peer c tail EV RT|i0 x0 r0 es0 m0 EV N]; subst; try reflexivity.
  - exfalso. injection EV as <- <-. destruct RT as [[_ RT]|[_ RT]]; contradiction.
  - exfalso. injection EV as <- <-. apply N3. eapply names_addressed, N.
Qed.

(** ** One reply *)
Lemma puts_emails : forall em, puts (email_effs em) = [].
Proof. intros [c|]; reflexivity. Qed.
Lemma puts_app : forall a b, puts (a ++ b) = puts a ++ puts b.
Proof. intros a b. unfold puts. apply flat_map_app. Qed.
Lemma one_reply : forall E g S (ops : store_ops S) s i x es, ca_at E g ops s ->
  addressed g VNew (i_name x) \/ addressed g VRevoke (i_name x) \/ addressed g VChallenge (i_name x) ->
  on_interest E g ops s i x = (es, Ok tt) ->
  exists d, puts es = [d] /\ d_name d = i_name x /\ data_signed_by E d (cf_sk g) /\ d_fresh d = sec 1.
Proof.
  intros E g S ops s i x es A AD H.
  assert (NEWC : forall rt, rt = RT_NEW \/ rt = RT_REVOKE -> addressed g (verb_of rt) (i_name x) ->
    exists d, puts es = [d] /\ d_name d = i_name x /\ data_signed_by E d (cf_sk g) /\ d_fresh d = sec 1).
  { intros rt RT AD'. rewrite (on_interest_new E g S ops s i rt x RT AD') in H.
    apply on_new_cases in H as [(peer & c & ADM & AO & _ & ->)|[(code & info & _ & -> & PL & RF)|(Q & _)]]; [..|exact RT];
      [eexists; (split; [reflexivity|]); repeat split..|discriminate]. }
  destruct AD as [AD|[AD|AD]]; [exact (NEWC RT_NEW (or_introl eq_refl) AD)|exact (NEWC RT_REVOKE (or_intror eq_refl) AD)|].
  rewrite (on_interest_at E g S ops _ s i x AD) in H. cbn [handle] in H.
  destruct (on_challenge_cases E g (s_get ops (ca_store s)) i x) as [(r & F & CO)|[(NF' & NUB & info & FI & Q')|(UB1 & Q')]].
  - rewrite H in CO. inversion CO; subst;
      try (match goal with H : Ok _ = _ \/ _ |- _ => destruct H as [H|[H|H]]; discriminate end);
      try (eexists; (split; [reflexivity|]); repeat split).
    rewrite puts_app, puts_emails. eexists. split; [reflexivity|]. repeat split.
  - rewrite Q' in H. injection H as <-. eexists. split; [reflexivity|]. repeat split.
  - rewrite Q' in H. discriminate.
Qed.
Lemma probe_reply : forall E g S (ops : store_ops S) s i x es, addressed g VProbe (i_name x) ->
  on_interest E g ops s i x = (es, Ok tt) ->
  (exists d, es = [EPut d] /\ d_name d = i_name x /\ data_signed_by E d (cf_sk g) /\ d_fresh d = sec 1 /\
     exists params, probe_params_decode (params_of x) = Ok params /\
       forall fmt, In (Assign AParam fmt) (assigns g) -> ~ param_throws E params fmt) \/
  (es = [] /\ ((forall params, probe_params_decode (params_of x) <> Ok params) \/
     exists params fmt, probe_params_decode (params_of x) = Ok params /\ In (Assign AParam fmt) (assigns g) /\ param_throws E params fmt)).
Proof.
  intros E g S ops s i x es AD H. rewrite (on_interest_at E g S ops _ s i x AD) in H. cbn [handle] in H. unfold on_probe in H.
  destruct (probe_params_decode (params_of x)) as [params| | |] eqn:D; cbn [bind] in H;
    [|injection H as <-; right; split; [reflexivity|left; discriminate]|discriminate|discriminate].
  pose proof (redirects_not_exn E params (cf_redirect (cf g))) as ND.
  destruct (redirects E (cf_redirect (cf g)) params) as [reds| | |]; try discriminate; [|contradiction]. cbn [bind] in H.
  destruct (suffixes_cases E params (assigns g) (in_words64 i)) as [(ns & Q)|(Q & fmt & IN & T)]; rewrite Q in H; cbn [bind] in H.
  - left.
    assert (NT : forall fmt, In (Assign AParam fmt) (assigns g) -> ~ param_throws E params fmt).
    { apply suffixes_offers in Q. intros fmt IN T. clear H. induction Q as [ws|a l ws ms rs K O Q IH|a l ws ms rs K O Q IH]; [destruct IN|..].
      - destruct IN as [->|IN]; [discriminate|auto].
      - destruct IN as [->|IN]; [|auto]. inversion O; subst; [eapply param_throws_not; eauto|eapply param_throws_missing; eauto]. }
    destruct reds; [destruct ns|]; unfold put_error in H; injection H as <-;
      eexists; (split; [reflexivity|]); (split; [reflexivity|]); (split; [reflexivity|]); (split; [reflexivity|]); exists params; split; auto.
  - injection H as <-. right. split; [reflexivity|]. right. exists params, fmt. auto.
Qed.

(** ** What a PROBE reply says *)
Lemma probe_answer : forall E g S (ops : store_ops S) s i x params rs ns, addressed g VProbe (i_name x) ->
  probe_params_decode (params_of x) = Ok params -> targets E params (cf_redirect (cf g)) rs -> offers E params (assigns g) (in_words64 i) ns ->
  (rs <> [] \/ ns <> []) -> p_prefix (cfp g) <> [] -> Forall (probe_fits (p_maxsuffix (cfp g))) (map (app (p_prefix (cfp g))) ns) -> Forall name_fits rs ->
  (forall k, p_maxsuffix (cfp g) = Some k -> k < 2 ^ 64) ->
  exists d, on_interest E g ops s i x = ([EPut d], Ok tt) /\ d_name d = i_name x /\ data_signed_by E d (cf_sk g) /\
    probe_decode (d_content d) = Ok (map (fun n => (p_prefix (cfp g) ++ n, narrow_suffix (p_maxsuffix (cfp g)))) ns, rs).
Proof.
  intros E g S ops s i x params rs ns AD D T O NE PN F1 F2 F3. rewrite (on_interest_at E g S ops _ s i x AD). cbn [handle]. unfold on_probe.
  rewrite D. cbn [bind]. apply targets_iff in T. rewrite T. cbn [bind]. apply suffixes_offers in O. rewrite O. cbn [bind].
  assert (RT : probe_decode (probe_encode (map (app (p_prefix (cfp g))) ns) (p_maxsuffix (cfp g)) rs) =
    Ok (map (fun n => (p_prefix (cfp g) ++ n, narrow_suffix (p_maxsuffix (cfp g)))) ns, rs)).
  { rewrite probe_roundtrip; [rewrite map_map; reflexivity|exact F1| |exact F2|exact F3].
    apply Forall_forall. intros n H. apply in_map_iff in H as (m & <- & _). intros Q. apply app_eq_nil in Q as [Q _]. contradiction. }
  destruct rs as [|r rs]; [destruct ns as [|n ns]; [destruct NE; contradiction|]|];
    eexists; (split; [reflexivity|]); (split; [reflexivity|]); (split; [reflexivity|]); exact RT.
Qed.
Lemma probe_nothing : forall E g S (ops : store_ops S) s i x params, addressed g VProbe (i_name x) ->
  probe_params_decode (params_of x) = Ok params -> targets E params (cf_redirect (cf g)) [] -> offers E params (assigns g) (in_words64 i) [] ->
  exists d, on_interest E g ops s i x = ([EPut d], Ok tt) /\ error_reply E g x INVALID_PARAMETER d.
Proof.
  intros E g S ops s i x params AD D T O. rewrite (on_interest_at E g S ops _ s i x AD). cbn [handle]. unfold on_probe.
  rewrite D. cbn [bind]. apply targets_iff in T. rewrite T. cbn [bind]. apply suffixes_offers in O. rewrite O. cbn [bind].
  eexists. split; [reflexivity|]. apply error_data_reply. split; [discriminate|]. split; [discriminate|vm_compute; reflexivity].
Qed.
(** Every PROBE Interest is answered so, throws nothing, or hits a redirection without a certificate. *)
Lemma probe_total : forall E g i params, (forall p, In (None, p) (cf_redirect (cf g)) -> ~ redirects_to p params) ->
  (forall fmt, In (Assign AParam fmt) (assigns g) -> ~ param_throws E params fmt) ->
  exists rs ns, targets E params (cf_redirect (cf g)) rs /\ offers E params (assigns g) (in_words64 i) ns.
Proof.
  intros E g i params NN NT.
  assert (exists rs, targets E params (cf_redirect (cf g)) rs) as (rs & T).
  { clear - NN. induction (cf_redirect (cf g)) as [|[oc p] l IH]; [exists []; constructor|].
    destruct IH as (rs & T); [intros q IN; apply NN; right; exact IN|]. destruct (is_redirecting p params) eqn:R.
    - apply redirecting_iff in R. destruct oc as [c|]; [exists (full_name E c :: rs); apply tg_hit; assumption|].
      exfalso. apply (NN p); [left; reflexivity|exact R].
    - exists rs. apply tg_miss; [|exact T]. intros Q. apply redirecting_iff in Q. congruence. }
  destruct (suffixes_cases E params (assigns g) (in_words64 i)) as [(ns & Q)|(_ & fmt & IN & TH)]; [|destruct (NT fmt IN TH)].
  exists rs, ns. split; [exact T|apply suffixes_offers, Q].
Qed.

(** ** Unsigned CHALLENGE Interests *)
Lemma unsigned_refused : forall E g S (ops : store_ops S) s i x id r, ca_at E g ops s -> names_request g id x ->
  pending ops s id = Some r -> ~ signed_by E x (public_key (rq_cert r)) ->
  exists d, step E g ops s (EvInterest i x) = Some (s, [EPut d]) /\ error_reply E g x BAD_SIGNATURE d.
Proof.
  intros E g S ops s i x id r A N P U. pose proof (names_addressed g x id N) as AD.
  assert (F : finds g (s_get ops (ca_store s)) x r) by (exists id; split; [apply (challenge_id_names g x id AD), N|exact P]).
  pose proof (on_challenge_found E g (s_get ops (ca_store s)) i x r F) as CO.
  assert (OI : on_interest E g ops s i x = on_challenge E g (s_get ops (ca_store s)) i x) by (rewrite (on_interest_at E g S ops _ s i x AD); reflexivity).
  rewrite <- OI in CO. remember (on_interest E g ops s i x) as out eqn:OE.
  destruct CO as [info FI _| | | | | | | |]; try contradiction.
  exists (error_data E g (i_name x) BAD_SIGNATURE info). rewrite (ok_step E g S ops s i x _ (eq_sym OE)). split; [destruct s; reflexivity|].
  apply error_data_reply. split; [discriminate|]. split; [discriminate|exact (short_fits _ FI)].
Qed.
