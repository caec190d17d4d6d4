(** What the challenge modules do to a request. *)
From Verif Require Export Spec_Ca NameFacts CryptoFacts EncoderFacts RequestFacts.
Local Open Scope N_scope.

Lemma pair_in_cons : forall x params k v, pair_in params k v -> pair_in (x :: params) k v.
Proof. intros x params k v (a & b & ->). exists (x :: a), b. reflexivity. Qed.

(** Invariant of the possession loop. *)
Lemma poss_loop_spec : forall E l cred proof cred' proof', poss_loop E l cred proof = Some (cred', proof') ->
  (cred' = cred \/ exists c, cred' = Some c /\ credential_in E l c) /\
  (proof' = proof \/ pair_in l (bs "proof") proof').
Proof.
  intros E. induction l as [|k l IH]; intros cred proof cred' proof' H; cbn [poss_loop] in H.
  - injection H as <- <-. auto.
  - destruct l as [|v l]; [injection H as <- <-; auto|].
    assert (Q : forall c1 p1, poss_loop E (v :: l) c1 p1 = Some (cred', proof') ->
      (c1 = cred \/ exists c, c1 = Some c /\ credential_in E (k :: v :: l) c) -> (p1 = proof \/ pair_in (k :: v :: l) (bs "proof") p1) ->
      (cred' = cred \/ exists c, cred' = Some c /\ credential_in E (k :: v :: l) c) /\ (proof' = proof \/ pair_in (k :: v :: l) (bs "proof") proof')).
    { intros c1 p1 H1 C1 P1. apply IH in H1 as [[->|(c & -> & w & b & X & Y)] [->|X2]]; (split; [auto|auto]);
        try (right; apply pair_in_cons; assumption); right; exists c; (split; [reflexivity|]); exists w, b; (split; [apply pair_in_cons, X|exact Y]). }
    destruct (N.eqb_spec (t_type k) T_ParameterKey) as [K|K]; cbn [andb] in H; [|exact (Q _ _ H (or_introl eq_refl) (or_introl eq_refl))].
    destruct (N.eqb_spec (t_type v) T_ParameterValue) as [V|V]; [|exact (Q _ _ H (or_introl eq_refl) (or_introl eq_refl))].
    assert (KV : forall kk, t_val k = kk -> pair_in (k :: v :: l) kk (t_val v)).
    { intros kk <-. exists [], l. cbn [app]. rewrite <- K, <- V. destruct k, v. reflexivity. }
    destruct (bytes_eqb (t_val k) K_CRED) eqn:B1.
    + apply bytes_eqb_eq in B1. destruct (block_from_value (t_val v)) as [b|] eqn:B; [|discriminate].
      destruct (data_decode E b) as [c|] eqn:D; [|discriminate].
      apply (Q _ _ H); [|left; reflexivity]. right. exists c. split; [reflexivity|]. exists (t_val v), b.
      split; [apply KV, B1|split; assumption].
    + destruct (bytes_eqb (t_val k) K_PROOF) eqn:B2.
      * apply bytes_eqb_eq in B2. apply (Q _ _ H); [left; reflexivity|]. right. apply KV, B2.
      * exact (Q _ _ H (or_introl eq_refl) (or_introl eq_refl)).
Qed.

(** An error with its text. *)
(** The texts of error messages *)
Definition short (info : bytes) : Prop := blen info <= 128.
Lemma short_fits : forall b, short b -> fits b.
Proof. intros b H. unfold short, fits in *. apply (N.le_lt_trans _ 128); [exact H|reflexivity]. Qed.
Definition plain_error (code : N) (info : bytes) : Prop := code <> NO_ERROR /\ code <= 8 /\ short info.
Ltac perr := split; [discriminate|split; [vm_compute; discriminate|unfold short in *; first [assumption|vm_compute; discriminate]]].

(** The possible results. *)
Inductive hc_result (E : env) (cfg : chal_cfg) (i : inputs) (ty : bytes) (params : list tlv) (r : request) : hres -> Prop :=
| HC_fail : forall o, o = Exn \/ o = UB \/ o = Hang -> hc_result E cfg i ty params r (HRes o r None)
| HC_error : forall code info, plain_error code info ->
    hc_result E cfg i ty params r (HRes (Ok (code, info)) (set_cs None (set_ctype [] (set_status ST_FAILURE r))) None)
| HC_start : forall cs em, rq_status r = ST_BEFORE -> starts E cfg i params r ty cs em ->
    hc_result E cfg i ty params r
      (HRes (Ok (NO_ERROR, [])) (set_cs (Some cs) (set_ctype (recorded_type ty) (set_status ST_CHALLENGE r))) em)
| HC_retry : forall cs cs', rq_status r <> ST_BEFORE -> rq_cs r = Some cs -> retries i params cs ty cs' ->
    hc_result E cfg i ty params r
      (HRes (Ok (NO_ERROR, [])) (set_cs (Some cs') (set_ctype (recorded_type ty) (set_status ST_CHALLENGE r))) None)
| HC_pass : forall cs, rq_status r <> ST_BEFORE -> rq_cs r = Some cs -> passes E i params cs ty ->
    hc_result E cfg i ty params r
      (HRes (Ok (NO_ERROR, [])) (set_cs None (set_ctype (recorded_type ty) (set_status ST_PENDING r))) None).

Lemma check_code_cases : forall E cfg i ty life msg params r, code_life ty life -> short msg -> recorded_type ty = ty -> rq_status r <> ST_BEFORE ->
  hc_result E cfg i ty params r (check_code ty life msg (in_t1 i) (in_t2 i) params r).
Proof.
  intros E cfg i ty life msg params r L FM RT ST. unfold check_code.
  assert (ERR : forall code info, plain_error code info -> hc_result E cfg i ty params r (ret_error r code info None)) by (intros; apply HC_error; assumption).
  assert (FAIL : hc_result E cfg i ty params r (ret_exn r None)) by (apply HC_fail; auto).
  destruct (rq_cs r) as [cs|] eqn:C; [|apply ERR; perr].
  destruct (bytes_eqb (cs_status cs) NEED_CODE || bytes_eqb (cs_status cs) WRONG_CODE) eqn:W; [|apply ERR; perr].
  assert (W' : wants_code cs).
  { apply orb_true_iff in W as [W|W]; apply bytes_eqb_eq in W; [left|right]; exact W. }
  destruct (get T_ParameterValue params) as [given|] eqn:G; [|exact FAIL].
  destruct (Z.leb_spec (sec life) (in_t1 i - cs_time cs)) as [X|X]; [apply ERR; perr|].
  destruct (sec_get K_CODE (cs_secrets cs)) as [code|] eqn:SC; [|exact FAIL].
  assert (GU : guesses i params cs ty (t_val given)) by (exists life, given; auto 10).
  destruct (bytes_eqb (t_val given) code) eqn:B.
  - apply bytes_eqb_eq in B. unfold ret_success. rewrite <- RT at 2. apply (HC_pass _ _ _ _ _ _ cs); [exact ST|exact C|].
    apply (pass_code _ _ _ _ _ code); [|exact SC]. rewrite <- B. exact GU.
  - apply bytes_eqb_neq in B. destruct (N.ltb_spec 1 (cs_tries cs)) as [T|T]; [|apply ERR; perr].
    unfold ret_new. rewrite <- RT at 2. eapply HC_retry; [exact ST|exact C|].
    exists (t_val given), code, life. repeat (split; [assumption|]). reflexivity.
Qed.

Lemma hc_cases : forall E cfg i ty params r h, handle_challenge E cfg i ty params r = Some h ->
  hc_result E cfg i ty params r h /\ (ty = bs "pin" \/ ty = bs "email" \/ ty = bs "possession").
Proof.
  intros E cfg i ty params r h H. unfold handle_challenge in H.
  assert (FAIL : forall o t, o = Exn \/ o = UB \/ o = Hang -> hc_result E cfg i t params r (HRes o r None)) by (intros; apply HC_fail; assumption).
  assert (ERR : forall t code info, plain_error code info -> hc_result E cfg i t params r (ret_error r code info None)) by (intros; apply HC_error; assumption).
  assert (BF : bs "pin" <> bs "possession" /\ bs "email" <> bs "possession") by (split; vm_compute; discriminate).
  destruct (bytes_eqb ty CH_PIN) eqn:B1; [|destruct (bytes_eqb ty CH_EMAIL) eqn:B2; [|destruct (bytes_eqb ty CH_POSSESSION) eqn:B3; [|discriminate]]];
    injection H as <-.
  - apply bytes_eqb_eq in B1. subst ty. split; [|auto]. unfold handle_pin.
    destruct (N.eqb_spec (rq_status r) ST_BEFORE) as [S|S].
    + destruct (gen_code (in_words i)) as [code| | |] eqn:G; [|apply FAIL; auto..].
      exact (HC_start E cfg i CH_PIN params r _ None S (start_pin E cfg i params r code G)).
    + apply check_code_cases; [constructor|vm_compute; discriminate|reflexivity|exact S].
  - apply bytes_eqb_eq in B2. subst ty. split; [|auto]. unfold handle_email.
    destruct (N.eqb_spec (rq_status r) ST_BEFORE) as [S|S].
    + destruct (get T_ParameterValue params) as [em|] eqn:P; [|apply FAIL; auto].
      destruct (get_neg 1 (identity_of (c_name (rq_cert r)))); [|apply FAIL; auto].
      destruct (gen_code (in_words i)) as [code| | |] eqn:G; [|apply FAIL; auto..].
      destruct (in_script_ok i); [|apply FAIL; auto].
      exact (HC_start E cfg i CH_EMAIL params r _ _ S (start_email E cfg i params r code em G P)).
    + apply check_code_cases; [constructor|vm_compute; discriminate|reflexivity|exact S].
  - apply bytes_eqb_eq in B3. subst ty. split; [|auto]. unfold handle_possession.
    destruct (cc_anchors cfg) as [anchors| | |] eqn:A; [|apply FAIL; auto..].
    destruct params as [|p0 ps] eqn:PS; [apply FAIL; auto|]. rewrite <- PS in *.
    destruct (poss_loop E params None []) as [[cred proof]|] eqn:PL; [|apply ERR; perr].
    pose proof (poss_loop_spec _ _ _ _ _ _ PL) as [PC PP].
    destruct (N.eqb_spec (rq_status r) ST_BEFORE) as [S|S].
    + destruct cred as [c|]; [|destruct (has_content None), proof; apply ERR; perr].
      destruct PC as [PC|(c0 & Q & PC)]; [discriminate|]. injection Q as <-.
      destruct (has_content (Some c)) eqn:HC; [|destruct proof; apply ERR; perr].
      destruct proof; [|apply ERR; perr].
      destruct (c_keyloc c) as [loc|] eqn:KL; [|apply FAIL; auto].
      destruct (o_pubkey_ok E (public_key c)); cbn [negb]; [|apply FAIL; auto].
      destruct (existsb (anchor_ok E c loc) anchors) eqn:X; [|apply ERR; perr].
      apply existsb_exists in X as (a & IA & OK). unfold anchor_ok in OK. apply andb_prop in OK as [O1 O2].
      refine (HC_start E cfg i CH_POSSESSION params r _ None S (start_possession E cfg i params r c PC _ _)).
      * unfold has_content in HC. destruct (c_content c); [discriminate|discriminate].
      * exists anchors, a, loc. split; [exact A|]. split; [exact IA|]. split; [exact KL|]. split; [|exact O2].
        apply orb_true_iff in O1 as [O1|O1]; apply name_eqb_eq in O1; auto.
    + destruct (rq_cs r) as [cs|] eqn:C; [|apply ERR; perr].
      destruct (bytes_eqb (cs_status cs) NEED_PROOF) eqn:W; [|apply ERR; perr]. apply bytes_eqb_eq in W.
      destruct (has_content cred); [apply ERR; perr|].
      destruct proof as [|p0' p'] eqn:PF; [apply ERR; perr|]. rewrite <- PF in *.
      destruct (from_hex (match sec_get K_CRED (cs_secrets cs) with Some h => h | None => [] end)) as [w|] eqn:FH; [|apply FAIL; auto].
      destruct (block_from_value w) as [t|] eqn:BV; [|apply FAIL; auto].
      destruct (cert_decode E t) as [c|] eqn:CD; [|apply FAIL; auto].
      destruct (from_hex (match sec_get K_NONCE (cs_secrets cs) with Some h => h | None => [] end)) as [nonce|] eqn:FN; [|apply FAIL; auto].
      destruct (o_pubkey_ok E (public_key c)); cbn [negb]; [|apply FAIL; auto].
      destruct (o_verify E (public_key c) (MRaw nonce) proof) eqn:V; [|apply ERR; perr].
      refine (HC_pass E cfg i CH_POSSESSION params r cs S C _). destruct PP as [PP|PP]; [subst; discriminate|].
      apply (pass_proof _ _ _ _ c w t nonce proof); try assumption. subst. discriminate.
Qed.
