(** Replies do not depend on secret codes until one is presented. *)
From Verif Require Import TraceProps ChalProps SimFacts.
From Verif Require Export Spec_Secrecy.
Local Open Scope N_scope.

(** Requests that differ at most in the secret code of the challenge they are in. *)
Definition with_secrets (se : list (bytes * bytes)) (cs : cstate) : cstate :=
  CState (cs_status cs) (cs_time cs) (cs_tries cs) (cs_rtime cs) se.
Definition coded (cs : cstate) : Prop := cs_status cs = NEED_CODE \/ cs_status cs = WRONG_CODE.
Inductive twin (r : request) : request -> Prop :=
| twin_refl : twin r r
| twin_code : forall cs c c', rq_cs r = Some cs -> coded cs -> cs_secrets cs = [(K_CODE, c)] ->
    twin r (set_cs (Some (with_secrets [(K_CODE, c')] cs)) r).
Inductive twin_opt : option request -> option request -> Prop :=
| twin_none : twin_opt None None
| twin_some : forall r r', twin r r' -> twin_opt (Some r) (Some r').
Inductive etwin : eff -> eff -> Prop :=
| et_same : forall e, etwin e e
| et_update : forall r r', twin r r' -> etwin (EUpdate r) (EUpdate r')
| et_callback : forall r r', twin r r' -> etwin (ECallback r) (ECallback r')
| et_email : forall c c', etwin (EEmail c) (EEmail c').
Definition otwin (h h' : hout) : Prop := Forall2 etwin (fst h) (fst h') /\ snd h = snd h'.

Lemma twin_fields : forall r r', twin r r' -> rq_cert r' = rq_cert r /\ rq_key r' = rq_key r /\ rq_id r' = rq_id r /\ rq_div r' = rq_div r /\
  rq_eiv r' = rq_eiv r /\ rq_status r' = rq_status r /\ rq_prefix r' = rq_prefix r /\ rq_type r' = rq_type r.
Proof. intros r r' []; cbn; auto 10. Qed.
Lemma twin_div : forall r r' v, twin r r' -> twin (set_div v r) (set_div v r').
Proof. intros r r' v [|cs c c' A B C]; [constructor|]. exact (twin_code (set_div v r) cs c c' A B C). Qed.
Lemma twin_eiv : forall r r' v, twin r r' -> twin (set_eiv v r) (set_eiv v r').
Proof. intros r r' v [|cs c c' A B C]; [constructor|]. exact (twin_code (set_eiv v r) cs c c' A B C). Qed.
Lemma twin_status : forall r r' v, twin r r' -> twin (set_status v r) (set_status v r').
Proof. intros r r' v [|cs c c' A B C]; [constructor|]. exact (twin_code (set_status v r) cs c c' A B C). Qed.
Lemma twin_cert : forall r r' v, twin r r' -> twin (set_cert v r) (set_cert v r').
Proof. intros r r' v [|cs c c' A B C]; [constructor|]. exact (twin_code (set_cert v r) cs c c' A B C). Qed.
Lemma twin_over : forall r r' o ty st, twin r r' -> set_cs o (set_ctype ty (set_status st r')) = set_cs o (set_ctype ty (set_status st r)).
Proof. intros r r' o ty st []; reflexivity. Qed.
Lemma forall2_refl : forall es, Forall2 etwin es es.
Proof. induction es; constructor; [constructor|assumption]. Qed.
Lemma otwin_refl : forall h, otwin h h.
Proof. intros h. split; [apply forall2_refl|reflexivity]. Qed.

(** ** Replies *)
Lemma coded_plain : forall s, s = NEED_CODE \/ s = WRONG_CODE -> bytes_eqb s (bs "need-proof") = false.
Proof. intros s [->| ->]; reflexivity. Qed.
Lemma plain_twin : forall r r' issued fwd, twin r r' -> chal_plain r' issued fwd = chal_plain r issued fwd.
Proof.
  intros r r' issued fwd [|cs c c' A B C]; [reflexivity|]. unfold chal_plain. rewrite A. cbn [rq_cs set_cs with_secrets cs_status cs_secrets cs_tries cs_rtime rq_status].
  rewrite (coded_plain _ B). reflexivity.
Qed.
Lemma encode_twin : forall E r r' issued fwd rnd, twin r r' ->
  fst (chal_encode E r' issued fwd rnd) = fst (chal_encode E r issued fwd rnd) /\ twin (snd (chal_encode E r issued fwd rnd)) (snd (chal_encode E r' issued fwd rnd)).
Proof.
  intros E r r' issued fwd rnd T. unfold chal_encode. rewrite (plain_twin _ _ issued fwd T). destruct (twin_fields _ _ T) as (_ & Q2 & Q3 & _ & Q5 & _).
  rewrite Q2, Q3, Q5. destruct (chal_plain r issued fwd) as [l| | |]; try (split; [reflexivity|exact T]).
  destruct (encode_aes E (rq_key r) (enc_tlvs l) (rq_id r) (rq_eiv r) rnd) as [o iv]. split; [reflexivity|]. apply twin_eiv, T.
Qed.
Lemma finish_twin : forall E g x es es' p r r', Forall2 etwin es es' -> twin r r' -> otwin (finish E g x es p r) (finish E g x es' p r').
Proof.
  intros E g x es es' p r r' F T. split; [|reflexivity]. cbn [finish fst]. apply Forall2_app; [exact F|]. constructor; [constructor|]. constructor; [apply et_callback, T|constructor].
Qed.
Lemma after_twin : forall E g i i' x es es' r r', (exists ws, i' = with_words ws i) -> Forall2 etwin es es' -> twin r r' ->
  otwin (after_challenge E g i x es r) (after_challenge E g i' x es' r').
Proof.
  intros E g i i' x es es' r r' (ws & ->) F T. unfold after_challenge. destruct (twin_fields _ _ T) as (Q1 & Q2 & Q3 & Q4 & Q5 & Q6 & Q7 & Q8).
  rewrite Q6, Q8, Q3. change (rnd_iv (with_words ws i)) with (rnd_iv i). change (in_version (with_words ws i)) with (in_version i).
  destruct (rq_status r =? ST_PENDING).
  - destruct ((rq_type r =? RT_NEW) || (rq_type r =? RT_RENEW)).
    + assert (IC : issue_certificate E g (in_version i) r' = issue_certificate E g (in_version i) r) by (unfold issue_certificate; rewrite Q1; reflexivity).
      rewrite IC. destruct (issue_certificate E g (in_version i) r) as [c| | |]; try (split; [exact F|reflexivity]).
      destruct (encode_twin E _ _ (c_name c) (p_fwd (cfp g)) (rnd_iv i) (twin_status _ _ ST_SUCCESS (twin_cert _ _ c T))) as [A B].
      destruct (chal_encode E (set_status ST_SUCCESS (set_cert c r)) _ _ _) as [o r3], (chal_encode E (set_status ST_SUCCESS (set_cert c r')) _ _ _) as [o' r3']. cbn [fst snd] in A, B. subst o'.
      assert (F2 : Forall2 etwin (es ++ [EIssue c; EDelete (rq_id r)]) (es' ++ [EIssue c; EDelete (rq_id r)])) by (apply Forall2_app; [exact F|apply forall2_refl]).
      destruct o; try (split; [exact F2|reflexivity]). apply finish_twin; assumption.
    + destruct (rq_type r =? RT_REVOKE); [|split; [exact F|reflexivity]].
      destruct (encode_twin E _ _ [] [] (rnd_iv i) (twin_status _ _ ST_SUCCESS T)) as [A B].
      destruct (chal_encode E (set_status ST_SUCCESS r) _ _ _) as [o r3], (chal_encode E (set_status ST_SUCCESS r') _ _ _) as [o' r3']. cbn [fst snd] in A, B. subst o'.
      assert (F2 : Forall2 etwin (es ++ [EDelete (rq_id r)]) (es' ++ [EDelete (rq_id r)])) by (apply Forall2_app; [exact F|apply forall2_refl]).
      destruct o; try (split; [exact F2|reflexivity]). apply finish_twin; assumption.
  - destruct (encode_twin E _ _ [] [] (rnd_iv i) T) as [A B].
    destruct (chal_encode E r _ _ _) as [o r3], (chal_encode E r' _ _ _) as [o' r3']. cbn [fst snd] in A, B. subst o'.
    destruct o; try (split; [exact F|reflexivity]). apply finish_twin; [|exact B]. apply Forall2_app; [exact F|]. constructor; [apply et_update, B|constructor].
Qed.

(** ** Challenge modules *)
Definition htwin (h h' : hres) : Prop :=
  h_out h' = h_out h /\ (h_email h = None /\ h_email h' = None \/ exists c c', h_email h = Some c /\ h_email h' = Some c') /\
  ((exists v, h_out h = Ok v) -> twin (h_req h) (h_req h')).
Lemma ht_new : forall c t r r' st n rt code code' em em', twin r r' -> st = NEED_CODE \/ st = WRONG_CODE -> (em = None /\ em' = None \/ exists c c', em = Some c /\ em' = Some c') ->
  htwin (ret_new c t r st [(K_CODE, code)] n rt em) (ret_new c t r' st [(K_CODE, code')] n rt em').
Proof.
  intros c t r r' st n rt code code' em em' T ST EM. split; [reflexivity|]. split; [exact EM|]. intros _. cbn [ret_new h_req].
  rewrite (twin_over _ _ _ c ST_CHALLENGE T).
  exact (twin_code (set_cs (Some (CState st t n rt [(K_CODE, code)])) (set_ctype c (set_status ST_CHALLENGE r))) (CState st t n rt [(K_CODE, code)]) code code' eq_refl ST eq_refl).
Qed.
Lemma ht_eq : forall c t r r' st se n rt em, twin r r' -> htwin (ret_new c t r st se n rt em) (ret_new c t r' st se n rt em).
Proof.
  intros c t r r' st se n rt em T. split; [reflexivity|]. split; [destruct em; [right; do 2 eexists; split; reflexivity|left; split; reflexivity]|]. intros _. cbn [ret_new h_req].
  rewrite (twin_over _ _ _ c ST_CHALLENGE T). constructor.
Qed.
Lemma ht_error : forall r r' c info, twin r r' -> htwin (ret_error r c info None) (ret_error r' c info None).
Proof. intros r r' c info T. split; [reflexivity|]. split; [left; split; reflexivity|]. intros _. cbn [ret_error h_req]. rewrite (twin_over _ _ _ [] ST_FAILURE T). constructor. Qed.
Lemma ht_success : forall c r r', twin r r' -> htwin (ret_success c r None) (ret_success c r' None).
Proof. intros c r r' T. split; [reflexivity|]. split; [left; split; reflexivity|]. intros _. cbn [ret_success h_req]. rewrite (twin_over _ _ _ c ST_PENDING T). constructor. Qed.
Lemma ht_exn : forall r r', twin r r' -> htwin (ret_exn r None) (ret_exn r' None).
Proof. intros r r' T. split; [reflexivity|]. split; [left; split; reflexivity|]. intros _. exact T. Qed.
Lemma ht_ub : forall r r', twin r r' -> htwin (ret_ub r) (ret_ub r').
Proof. intros r r' T. split; [reflexivity|]. split; [left; split; reflexivity|]. intros _. exact T. Qed.
Lemma ht_hang : forall r r', twin r r' -> htwin (ret_hang r) (ret_hang r').
Proof. intros r r' T. split; [reflexivity|]. split; [left; split; reflexivity|]. intros _. exact T. Qed.
Ltac ht := first [apply ht_eq; assumption|apply ht_error; assumption|apply ht_success; assumption|apply ht_exn; assumption|apply ht_ub; assumption|apply ht_hang; assumption].

(** The parameters hit the code of [r]. *)
Definition lucky (i : inputs) (ty : bytes) (params : list tlv) (r : request) : Prop :=
  exists cs code, rq_cs r = Some cs /\ sec_get K_CODE (cs_secrets cs) = Some code /\ guesses i params cs ty code.
Lemma check_twin : forall c life nt i params r r', twin r r' -> code_life c life ->
  htwin (check_code c life nt (in_t1 i) (in_t2 i) params r) (check_code c life nt (in_t1 i) (in_t2 i) params r') \/ lucky i c params r \/ lucky i c params r'.
Proof.
  intros c life nt i params r r' T CL. destruct T as [|cs k k' A B C].
  { left. split; [reflexivity|]. split; [|intros _; constructor]. destruct (h_email (check_code c life nt (in_t1 i) (in_t2 i) params r)); [right; do 2 eexists; split; reflexivity|left; split; reflexivity]. }
  pose (r' := set_cs (Some (with_secrets [(K_CODE, k')] cs)) r). fold r'. assert (T : twin r r') by exact (twin_code r cs k k' A B C).
  assert (A' : rq_cs r' = Some (with_secrets [(K_CODE, k')] cs)) by reflexivity.
  unfold check_code. rewrite A, A'. cbn [with_secrets cs_status cs_time cs_secrets cs_tries]. rewrite C. cbn [sec_get]. rewrite bytes_eqb_refl.
  destruct (bytes_eqb (cs_status cs) NEED_CODE || bytes_eqb (cs_status cs) WRONG_CODE) eqn:ST; [|left; ht].
  destruct (get T_ParameterValue params) as [given|] eqn:G; [|left; ht]. destruct (Z.leb_spec (sec life) (in_t1 i - cs_time cs)); [left; ht|].
  assert (L : forall q, t_val given = q -> guesses i params cs c q).
  { intros q <-. exists life, given. split; [exact CL|]. split; [exact B|]. split; [exact G|]. split; [reflexivity|lia]. }
  destruct (bytes_eqb (t_val given) k) eqn:E1.
  { apply bytes_eqb_eq in E1. right. left. exists cs, k. split; [exact A|]. split; [rewrite C; cbn [sec_get]; rewrite bytes_eqb_refl; reflexivity|]. apply L, E1. }
  destruct (bytes_eqb (t_val given) k') eqn:E2.
  { apply bytes_eqb_eq in E2. right. right. exists (with_secrets [(K_CODE, k')] cs), k'. split; [exact A'|]. split; [cbn [with_secrets cs_secrets sec_get]; rewrite bytes_eqb_refl; reflexivity|].
    destruct (L k' E2) as (l & t & P1 & P2 & P3). exists l, t. auto. }
  left. destruct (1 <? cs_tries cs); [|ht]. apply ht_new; [exact T|right; reflexivity|left; auto].
Qed.
(** The draws differ at most in the secret code. *)
Definition draws_alike (i i' : inputs) : Prop :=
  (exists ws, i' = with_words ws i) /\ (gen_code (in_words i') = gen_code (in_words i) \/ (exists c, gen_code (in_words i) = Ok c) /\ (exists c, gen_code (in_words i') = Ok c)).
Lemma alike_other : forall i i', other_code i i' -> draws_alike i i'.
Proof. intros i i' (A & B). split; [exact A|right; exact B]. Qed.
Lemma alike_same : forall i, draws_alike i i.
Proof. intros i. split; [exists (in_words i); destruct i; reflexivity|left; reflexivity]. Qed.
Lemma challenge_twin : forall E cfg i i' ty params r r', twin r r' -> draws_alike i i' ->
  (match handle_challenge E cfg i ty params r, handle_challenge E cfg i' ty params r' with
   | Some h1, Some h2 => htwin h1 h2 | None, None => True | _, _ => False end) \/ lucky i ty params r \/ lucky i' ty params r'.
Proof.
  intros E cfg i i' ty params r r' T ((ws & ->) & GG). destruct (twin_fields _ _ T) as (Q1 & Q2 & Q3 & Q4 & Q5 & Q6 & Q7 & Q8).
  unfold handle_challenge. destruct (bytes_eqb ty CH_PIN) eqn:TP; [|destruct (bytes_eqb ty CH_EMAIL) eqn:TE; [|destruct (bytes_eqb ty CH_POSSESSION); [left|left; exact I]]].
  - apply bytes_eqb_eq in TP. subst ty. unfold handle_pin. rewrite Q6. destruct (rq_status r =? ST_BEFORE); [|apply (check_twin CH_PIN pin_life _ i params r r' T life_pin)].
    left. destruct GG as [GG|((code & GC) & (code' & GC'))]; [rewrite GG; destruct (gen_code (in_words i)); [|ht..]; apply ht_new; [exact T|left; reflexivity|left; auto]|].
    rewrite GC, GC'. apply ht_new; [exact T|left; reflexivity|left; auto].
  - apply bytes_eqb_eq in TE. subst ty. unfold handle_email. rewrite Q6, Q1. destruct (rq_status r =? ST_BEFORE); [left|apply (check_twin CH_EMAIL email_life _ i params r r' T life_email)].
    destruct (get T_ParameterValue params); [|ht]. destruct (get_neg 1 (identity_of (c_name (rq_cert r)))); [|ht].
    change (in_script_ok (with_words ws i)) with (in_script_ok i). destruct GG as [GG|((code & GC) & (code' & GC'))]; [rewrite GG; destruct (gen_code (in_words i)); [|ht..]|rewrite GC, GC'];
    (destruct (in_script_ok i); [|ht]; apply ht_new; [exact T|left; reflexivity|right; eauto]).
  - unfold handle_possession. change (rnd_nonce (with_words ws i)) with (rnd_nonce i). change (in_t2 (with_words ws i)) with (in_t2 i). rewrite Q6.
    destruct (cc_anchors cfg); try ht. destruct params as [|p0 params]; [ht|].
    destruct (poss_loop E (p0 :: params) None []) as [[cred proof]|]; [|ht]. destruct (rq_status r =? ST_BEFORE).
    + destruct cred as [c|]; [|ht]. destruct (has_content (Some c)), proof; try ht. destruct (c_keyloc c); [|ht].
      destruct (negb (o_pubkey_ok E (public_key c))); [ht|]. destruct (existsb _ _); ht.
    + assert (Q : match rq_cs r, rq_cs r' with
                  | Some cs, Some cs' => bytes_eqb (cs_status cs') NEED_PROOF = bytes_eqb (cs_status cs) NEED_PROOF /\ (bytes_eqb (cs_status cs) NEED_PROOF = true -> cs_secrets cs' = cs_secrets cs)
                  | None, None => True | _, _ => False end).
      { destruct T as [|cs k k' A B C]; [destruct (rq_cs r); auto|]. cbn [rq_cs set_cs]. rewrite A. cbn [with_secrets cs_status cs_secrets]. split; [reflexivity|]. destruct B as [-> | ->]; discriminate. }
      destruct (rq_cs r) as [cs|], (rq_cs r') as [cs'|]; try contradiction; [|ht]. destruct Q as [QA QB]. rewrite QA.
      destruct (bytes_eqb (cs_status cs) NEED_PROOF); [|ht]. rewrite (QB eq_refl).
      destruct (has_content cred); [ht|]. destruct proof as [|p1 proof]; [ht|].
      destruct (from_hex _); [|ht]. destruct (block_from_value _); [|ht]. destruct (cert_decode E _) as [c|]; [|ht]. destruct (from_hex _); [|ht].
      destruct (negb (o_pubkey_ok E (public_key c))); [ht|]. destruct (o_verify E _ _ _); ht.
Qed.
(** The Interest hits the code of the request [get_req] finds for it. *)
Definition lucky_at (E : env) (g : ca_cfg) (get_req : bytes -> option request) (i : inputs) (x : interest) : Prop :=
  exists r params ty dv, finds g get_req x r /\ signed_by E x (public_key (rq_cert r)) /\ opened E x r params ty dv /\ lucky i ty params r.
Lemma on_challenge_twin : forall E g get1 get2 i i' x, (forall id, twin_opt (get1 id) (get2 id)) -> draws_alike i i' ->
  otwin (on_challenge E g get1 i x) (on_challenge E g get2 i' x) \/ lucky_at E g get1 i x \/ lucky_at E g get2 i' x.
Proof.
  intros E g get1 get2 i i' x H OC. unfold on_challenge. destruct (challenge_id g (i_name x)) as [id| | |] eqn:CI; try (left; apply otwin_refl).
  pose proof (H id) as HI. destruct (get1 id) as [r|] eqn:G1, (get2 id) as [r'|] eqn:G2; inversion HI as [|? ? T]; subst; [|left; apply otwin_refl].
  destruct (twin_fields _ _ T) as (Q1 & Q2 & Q3 & Q4 & Q5 & _). rewrite Q1, Q2, Q3, Q4, Q5.
  destruct (verify_interest E x (rq_cert r)) eqn:V; cbn [negb]; [|left; apply otwin_refl]. apply verify_interest_iff in V.
  destruct (decode_aes E (rq_key r) (params_of x) (rq_id r) (rq_div r) (rq_eiv r)) as [o dv] eqn:D. destruct o as [[|b pt]| | |]; try (left; apply otwin_refl).
  destruct (parse (b :: pt)) as [params|] eqn:P; [|left; apply otwin_refl]. destruct (get T_SelectedChallenge params) as [ct|] eqn:SC; [|left; apply otwin_refl].
  destruct (challenge_twin E (cf_chal g) i i' (t_val ct) params (set_div dv r) (set_div dv r') (twin_div _ _ dv T) OC) as [HC|HC].
  - left. destruct (handle_challenge E (cf_chal g) i (t_val ct) params (set_div dv r)) as [h1|], (handle_challenge E (cf_chal g) i' (t_val ct) params (set_div dv r')) as [h2|]; try contradiction; [|apply otwin_refl].
    destruct HC as (P1 & P2 & P3). rewrite P1.
    assert (F : Forall2 etwin (match h_email h1 with Some cmd => [EEmail cmd] | None => [] end) (match h_email h2 with Some cmd => [EEmail cmd] | None => [] end)).
    { destruct P2 as [(-> & ->)|(c & c' & -> & ->)]; [constructor|]. constructor; [apply et_email|constructor]. }
    destruct (h_out h1) as [[code info]| | |]; try (split; [exact F|reflexivity]). destruct (negb (code =? NO_ERROR)).
    + split; [|reflexivity]. cbn [drop_error fst]. apply Forall2_app; [exact F|apply forall2_refl].
    + apply after_twin; [destruct OC as [OC _]; exact OC|exact F|apply P3; eauto].
  - right. assert (SE : selects params (t_val ct)) by (exists ct; auto).
    destruct HC as [(cs & k & A & B & C)|(cs & k & A & B & C)]; [left; exists r|right; exists r']; exists params, (t_val ct), dv.
    + split; [exists id; auto|]. split; [exact V|]. split; [exists (b :: pt); split; [exact D|]; split; [discriminate|]; auto|]. exists cs, k. auto.
    + split; [exists id; auto|]. rewrite Q1. split; [exact V|]. split; [exists (b :: pt); rewrite Q2, Q3, Q4, Q5; split; [exact D|]; split; [discriminate|]; auto|]. exists cs, k. auto.
Qed.

(** ** States *)
Lemma twin_stored : forall r r', twin r r' -> twin (db_stored r) (db_stored r').
Proof.
  intros r r' [|cs c c' A B C]; [constructor|]. unfold db_stored. rewrite A. cbn [rq_cs set_cs with_secrets cs_status cs_time cs_tries cs_rtime cs_secrets].
  match goal with |- twin ?a _ => exact (twin_code a (CState (cs_status cs) (trunc_us (cs_time cs)) (cs_tries cs) (i32_of_Z (cs_rtime cs)) (cs_secrets cs)) c c' eq_refl B C) end.
Qed.
Inductive nrm_twin (nrm : request -> request) : Prop := nt : (forall r r', twin r r' -> twin (nrm r) (nrm r')) -> nrm_twin nrm.
Lemma result_twin : forall nrm id es es' m m', nrm_twin nrm -> Forall2 etwin es es' -> twin_opt m m' -> twin_opt (result nrm id es m) (result nrm id es' m').
Proof.
  intros nrm id es es' m m' [NT] F. revert m m'. induction F as [|e e' es es' T F IH]; intros m m' M; [exact M|]. cbn [result]. apply IH. destruct T as [e|r r' T|r r' T|c c']; try exact M.
  - destruct e; try exact M.
    + destruct (bytes_eqb (rq_id r) id); [repeat constructor|exact M].
    + destruct (bytes_eqb (rq_id r) id); [repeat constructor|exact M].
    + destruct (bytes_eqb id0 id); [constructor|exact M].
  - destruct (twin_fields _ _ T) as (_ & _ & -> & _). destruct (bytes_eqb (rq_id r) id); [constructor; apply NT, T|exact M].
Qed.
Lemma puts_twin : forall es es', Forall2 etwin es es' -> puts es' = puts es.
Proof.
  intros es es' F. unfold puts. induction F as [|e e' es es' T F IH]; [reflexivity|]. cbn [flat_map]. rewrite IH. destruct T; reflexivity.
Qed.
Lemma prof_twin : forall es es', Forall2 etwin es es' -> forall p, prof_eff es' p = prof_eff es p.
Proof. intros es es' F. unfold prof_eff. induction F as [|e e' es es' T F IH]; intros p; [reflexivity|]. cbn [fold_left]. rewrite IH. destruct T; reflexivity. Qed.
Lemma firstn_twin : forall es es', Forall2 etwin es es' -> forall n, Forall2 etwin (firstn n es) (firstn n es').
Proof. intros es es' F. induction F; intros [|n]; cbn [firstn]; constructor; auto. Qed.

(** ** One event *)
Section Secrecy.
  Context (E : env) (g : ca_cfg) {S : Type} (ops : store_ops S).
  Definition alike (s s' : ca_state S) : Prop :=
    ca_idkey s = ca_idkey s' /\ ca_prof s = ca_prof s' /\ forall id, twin_opt (pending ops s id) (pending ops s' id).
  Lemma ends : forall s, ca_at E g ops s -> exists inv nrm, store_laws E ops inv nrm /\ nrm_twin nrm /\
    (forall s0 s0' r, inv s0 -> inv s0' -> twin_opt (s_get ops s0 (rq_id r)) (s_get ops s0' (rq_id r)) ->
       match s_add ops s0 r with Some _ => true | None => false end = match s_add ops s0' r with Some _ => true | None => false end) /\
    ((forall s0 id, s_get ops (s_restart ops s0) id = s_get ops s0 id) \/ (forall s0 id, s_get ops (s_restart ops s0) id = None)).
  Proof.
    intros s [LC NF B _]. destruct B.
    - exists (mem_inv (storable E)), (fun r => r). split; [apply mem_laws|]. split; [constructor; auto|]. split; [|right; reflexivity].
      intros s0 s0' r _ _ T. cbn [mem_ops s_add s_get] in *. unfold mem_add, mem_get in *. inversion T; reflexivity.
    - exists (db_inv E), db_stored. split; [apply db_laws, LC|]. split; [constructor; apply twin_stored|]. split; [|left; reflexivity].
      intros s0 s0' r I I' T. cbn [db_ops s_add s_get] in *. inversion T as [A B|a b Q A B].
      + unfold db_add. rewrite (db_get_none E LC s0 _ I), (db_get_none E LC s0' _ I') by congruence. reflexivity.
      + unfold db_add, db_get in *. destruct (db_row s0 (rq_id r)); [|discriminate]. destruct (db_row s0' (rq_id r)); [reflexivity|discriminate].
  Qed.
  Lemma ca_at_inv2 : forall inv nrm s, store_laws E ops inv nrm -> ca_at E g ops s -> ca_inv g ops inv s.
  Proof.
    intros inv nrm s SL [LC NF B (key & evs & h & R)]. destruct (init_inv E g ops inv nrm SL key) as [I _].
    exact (proj1 (run_path E g ops inv nrm SL LC NF evs _ _ _ I R)).
  Qed.
  Lemma interest_twin : forall s s' i i' x, ca_at E g ops s -> ca_at E g ops s' -> alike s s' -> draws_alike i i' ->
    otwin (on_interest E g ops s i x) (on_interest E g ops s' i' x) \/
    (addressed g VChallenge (i_name x) /\ (lucky_at E g (s_get ops (ca_store s)) i x \/ lucky_at E g (s_get ops (ca_store s')) i' x)).
  Proof.
    intros s s' i i' x A A' (K & P & N) OC. destruct (ends s A) as (inv & nrm & SL & _ & AD & _).
    pose proof (ca_at_inv2 inv nrm s SL A) as [I _]. pose proof (ca_at_inv2 inv nrm s' SL A') as [I' _].
    destruct (on_interest_cases E g S ops s i x) as [[NA Q]|(v & AV & Q)].
    - destruct (on_interest_cases E g S ops s' i' x) as [[_ Q']|(v & AV & _)]; [|destruct (NA v AV)]. left. rewrite Q, Q'. apply otwin_refl.
    - destruct (on_interest_cases E g S ops s' i' x) as [[NA _]|(v' & AV' & Q')]; [destruct (NA v AV)|].
      assert (v' = v) by (destruct (dispatch_cases g (i_name x)) as [D|(w & D & _)]; apply dispatch_iff in AV, AV'; rewrite D in AV, AV'; [destruct AV|destruct AV as [<-|[]], AV' as [<-|[]]; reflexivity]). subst v'.
      rewrite Q, Q'. destruct OC as [(ws & ->) OC'].
      assert (ADD : forall r, match s_add ops (ca_store s') r with Some _ => true | None => false end = match s_add ops (ca_store s) r with Some _ => true | None => false end).
      { intros r. symmetry. apply (AD _ _ r I I'). apply N. }
      unfold handle. rewrite <- K, <- P. destruct v; try (left; apply otwin_refl).
      + left. rewrite (on_new_ext E g _ _ (ca_idkey s) (with_words ws i) RT_NEW x ADD). apply otwin_refl.
      + destruct (on_challenge_twin E g (s_get ops (ca_store s)) (s_get ops (ca_store s')) i (with_words ws i) x N) as [Z|Z]; [split; [exists ws; reflexivity|exact OC']|left; exact Z|right; auto].
      + left. rewrite (on_new_ext E g _ _ (ca_idkey s) (with_words ws i) RT_REVOKE x ADD). apply otwin_refl.
  Qed.
  Lemma lucky_hits : forall s ev es s2 i x, ca_at E g ops s -> ev = EvInterest i x \/ (exists n key, ev = EvCrash i x n key) -> addressed g VChallenge (i_name x) ->
    lucky_at E g (s_get ops (ca_store s)) i x -> hits E g ops (HStep s ev es s2).
  Proof.
    intros s ev es s2 i x A EV AV (r & params & ty & dv & (id & CI & G) & SB & OP & (cs & code & C1 & C2 & C3)).
    destruct (pending_live E g S ops s id r A G) as [IDR _]. destruct (opened_opens E x r params ty dv OP) as [OO SE]. rewrite IDR in OO.
    exists id, r, cs, code. split; [exact G|]. split; [exact C1|]. split; [exact C2|]. exists i, params, ty, r, cs. split; [exact G|]. split; [exact C1|]. split; [|exact C3].
    exists x. split; [exact EV|]. split; [|split; [exact SB|split; [exact OO|exact SE]]].
    exact (proj1 (challenge_id_names g x id AV) CI).
  Qed.
  (** The effects are twins, whether or not the process then dies. *)
  Lemma after_effs : forall inv nrm s s' ev ev' i i' x es es' full full' o o', store_laws E ops inv nrm -> nrm_twin nrm -> ca_at E g ops s -> ca_at E g ops s' -> alike s s' ->
    ev_interest ev = Some (i, x) -> ev_interest ev' = Some (i', x) -> on_interest E g ops s i x = (full, o) -> on_interest E g ops s' i' x = (full', o') -> o <> UB -> o' <> UB ->
    cut es full -> cut es' full' -> Forall2 etwin es es' -> alike (apply_effs ops es s) (apply_effs ops es' s').
  Proof.
    intros inv nrm s s' ev ev' i i' x es es' full full' o o' SL NT A A' (K & P & N) EV EV' O O' U U' C C' F.
    pose proof (ca_at_inv2 inv nrm s SL A) as I. pose proof (ca_at_inv2 inv nrm s' SL A') as I'. destruct A as [LC NF _ _].
    destruct (interest_step E g ops inv nrm SL LC NF s ev i x es full o I EV O U C) as [_ M].
    destruct (interest_step E g ops inv nrm SL LC NF s' ev' i' x es' full' o' I' EV' O' U' C') as [_ M'].
    split; [rewrite !idkey_effs; exact K|]. split; [rewrite !prof_effs, (prof_twin _ _ F), P; reflexivity|]. intros id.
    change (twin_opt (ca_get ops (apply_effs ops es s) id) (ca_get ops (apply_effs ops es' s') id)).
    rewrite (mid_result _ _ _ _ _ _ _ _ (M id) (fun r Q => proj1 (proj2 I id r Q))), (mid_result _ _ _ _ _ _ _ _ (M' id) (fun r Q => proj1 (proj2 I' id r Q))).
    apply result_twin; [exact NT|exact F|apply N].
  Qed.
  Lemma cut_refl : forall es, cut es es.
  Proof. intros es. exists []. symmetry. apply app_nil_r. Qed.
  Lemma cut_firstn : forall n es, cut (firstn n es) es.
  Proof. intros n es. exists (skipn n es). symmetry. apply firstn_skipn. Qed.
  Lemma restart_alike : forall s s' key, ca_at E g ops s -> (forall id, twin_opt (pending ops s id) (pending ops s' id)) -> alike (restart ops key s) (restart ops key s').
  Proof.
    intros s s' key A N. destruct (ends s A) as (inv & nrm & _ & _ & _ & RS). split; [reflexivity|]. split; [reflexivity|]. intros id. unfold pending, restart. cbn [ca_store].
    destruct RS as [R|R]; rewrite !R; [apply N|constructor].
  Qed.
  Lemma step_twin : forall s s' ev ev' es es' s1 s1', ca_at E g ops s -> ca_at E g ops s' -> alike s s' -> same_but_codes ev ev' ->
    step E g ops s ev = Some (s1, es) -> step E g ops s' ev' = Some (s1', es') ->
    ~ hits E g ops (HStep s ev es s1) -> ~ hits E g ops (HStep s' ev' es' s1') -> alike s1 s1' /\ puts es = puts es'.
  Proof.
    intros s s' ev ev' es es' s1 s1' A A' AL SB ST ST' NH NH'. destruct (ends s A) as (inv & nrm & SL & NT & _ & _). destruct SB as [i i' x OC|i i' x n key OC|key|i i' OC]; cbn [step] in ST, ST'.
    - destruct (interest_twin s s' i i' x A A' AL (alike_other _ _ OC)) as [[F R]|(AV & [L|L])].
      + destruct (on_interest E g ops s i x) as [full o] eqn:O, (on_interest E g ops s' i' x) as [full' o'] eqn:O'. cbn [fst snd] in F, R. subst o'.
        assert (Q : o <> UB /\ (apply_effs ops full s, full) = (s1, es) /\ (apply_effs ops full' s', full') = (s1', es')).
        { destruct o; try discriminate; (split; [discriminate|]); injection ST as <- <-; injection ST' as <- <-; auto. }
        destruct Q as (U & Q1 & Q2). injection Q1 as <- <-. injection Q2 as <- <-. split; [|symmetry; apply puts_twin, F].
        exact (after_effs inv nrm s s' (EvInterest i x) (EvInterest i' x) i i' x full full' full full' o o SL NT A A' AL eq_refl eq_refl O O' U U (cut_refl _) (cut_refl _) F).
      + destruct NH. apply (lucky_hits _ _ _ _ i x A); auto.
      + destruct NH'. apply (lucky_hits _ _ _ _ i' x A'); auto.
    - destruct (interest_twin s s' i i' x A A' AL (alike_other _ _ OC)) as [[F R]|(AV & [L|L])].
      + destruct (on_interest E g ops s i x) as [full o] eqn:O, (on_interest E g ops s' i' x) as [full' o'] eqn:O'. cbn [fst snd] in F, R. subst o'.
        assert (Q : o <> UB /\ (restart ops key (apply_effs ops (firstn n full) s), firstn n full) = (s1, es) /\ (restart ops key (apply_effs ops (firstn n full') s'), firstn n full') = (s1', es')).
        { destruct o; try discriminate; (split; [discriminate|]); injection ST as <- <-; injection ST' as <- <-; auto. }
        destruct Q as (U & Q1 & Q2). injection Q1 as <- <-. injection Q2 as <- <-. pose proof (firstn_twin _ _ F n) as F'. split; [|symmetry; apply puts_twin, F'].
        pose proof (after_effs inv nrm s s' (EvInterest i x) (EvInterest i' x) i i' x (firstn n full) (firstn n full') full full' o o SL NT A A' AL eq_refl eq_refl O O' U U (cut_firstn _ _) (cut_firstn _ _) F') as (_ & _ & N).
        destruct (ends s A) as (_ & _ & _ & _ & _ & RS). split; [reflexivity|]. split; [reflexivity|]. intros id. unfold pending, restart in *. cbn [ca_store].
        destruct RS as [RR|RR]; rewrite !RR; [apply N|constructor].
      + destruct NH. apply (lucky_hits _ _ _ _ i x A); eauto.
      + destruct NH'. apply (lucky_hits _ _ _ _ i' x A'); eauto.
    - injection ST as <- <-. injection ST' as <- <-. split; [|reflexivity]. apply restart_alike; [exact A|]. apply AL.
    - destruct OC as [(ws & ->) _]. assert (Q : on_get_profile E g (ca_prof s') (with_words ws i) = on_get_profile E g (ca_prof s) i) by (destruct AL as (_ & -> & _); reflexivity).
      rewrite Q in ST'. destruct (on_get_profile E g (ca_prof s) i) as [full o] eqn:O.
      assert (Z : (apply_effs ops full s, full) = (s1, es) /\ (apply_effs ops full s', full) = (s1', es')) by (destruct o; try discriminate; injection ST as <- <-; injection ST' as <- <-; auto).
      destruct Z as (Z1 & Z2). injection Z1 as <- <-. injection Z2 as <- <-. split; [|reflexivity]. destruct AL as (K & P & N).
      split; [rewrite !idkey_effs; exact K|]. split; [rewrite !prof_effs, P; reflexivity|]. intros id.
      assert (SI : Forall silent full) by (unfold on_get_profile in O; destruct (profile_data E g (ca_prof s) (in_version i)); injection O as <- <-; try destruct (ca_prof s); repeat constructor).
      unfold pending in *. rewrite !(silent_store ops full _ SI). apply N.
  Qed.
  Lemma codes_hidden : forall s s' tr tr' s2 s2', ca_at E g ops s -> ca_at E g ops s' -> alike s s' -> steps E g ops s tr s2 -> steps E g ops s' tr' s2' ->
    Forall2 same_but_codes (map h_ev tr) (map h_ev tr') -> (forall st, In st (tr ++ tr') -> ~ hits E g ops st) -> sent tr = sent tr'.
  Proof.
    intros s s' tr tr' s2 s2' A A' AL H. revert s' tr' s2' A' AL. induction H as [s|s ev es s1 tr s2 ST H IH]; intros s' tr' s2' A' AL H' F NH; cbn [map h_ev] in F.
    - destruct tr'; [reflexivity|]. cbn [map] in F. inversion F.
    - inversion H' as [|? ev' es' s1' tr2 ? ST' H2]; subst; cbn [map h_ev] in F; inversion F as [|? ? ? ? SB F2]; subst.
      destruct (step_twin s s' ev ev' es es' s1 s1' A A' AL SB ST ST') as [AL2 Q]; [apply NH; left; reflexivity|apply NH; apply in_or_app; right; left; reflexivity|].
      unfold sent in *. cbn [map h_effs]. rewrite Q. f_equal. apply (IH (ca_at_step E g _ ops _ _ _ _ A ST) s1' tr2 s2' (ca_at_step E g _ ops _ _ _ _ A' ST') AL2 H2 F2).
      intros st IN. apply NH. apply in_app_or in IN as [IN|IN]; [right; apply in_or_app; left; exact IN|right; apply in_or_app; right; right; exact IN].
  Qed.
  Lemma alike_refl : forall s, alike s s.
  Proof. intros s. split; [reflexivity|]. split; [reflexivity|]. intros id. destruct (pending ops s id); constructor. constructor. Qed.
End Secrecy.
Lemma secrecy : forall E g S (ops : store_ops S) s tr tr' s2 s2', ca_at E g ops s -> steps E g ops s tr s2 -> steps E g ops s tr' s2' ->
  Forall2 same_but_codes (map h_ev tr) (map h_ev tr') -> (forall st, In st (tr ++ tr') -> ~ hits E g ops st) -> sent tr = sent tr'.
Proof. intros E g S ops s tr tr' s2 s2' A H H' F NH. exact (codes_hidden E g ops s s tr tr' s2 s2' A A (alike_refl ops s) H H' F NH). Qed.
