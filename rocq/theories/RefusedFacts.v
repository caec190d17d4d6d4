(** The error replies of a CA. *)
From Verif Require Export Spec_Refused CrashFacts.
From Coq Require Import Lia.
Local Open Scope N_scope.

Section Refused.
  Context {E : env} {g : ca_cfg} {S : Type} {ops : store_ops S}.

  Lemma carries_one : forall rt x p c p' c', rt = RT_NEW \/ rt = RT_REVOKE -> carries E rt x p c -> carries E rt x p' c' -> p' = p /\ c' = c.
  Proof. intros rt x p c p' c' RT C C'. apply carries_decode in C; [|exact RT]. apply carries_decode in C'; [|exact RT]. rewrite C in C'. injection C'; auto. Qed.
  (** One reason only. *)
  Lemma refused_one : forall i rt idkey taken x code text code' text', rt = RT_NEW \/ rt = RT_REVOKE ->
    refused E g i rt idkey taken x code text -> refused E g i rt idkey taken x code' text' -> code' = code /\ text' = text.
  Proof.
    intros i rt idkey taken x code text code' text' RT R R'.
    assert (NR : forall P : Prop, rt = RT_NEW -> rt = RT_REVOKE -> P) by (intros P Q1 Q2; rewrite Q1 in Q2; discriminate).
    assert (CP : forall c, cert_policy E g rt (in_t2 i) x c -> rt = RT_NEW -> exists nb na, c_validity c = Some (nb, na) /\ period_policy g (in_t2 i) nb na /\ cert_signed_by E c (public_key c) /\ signed_by E x (public_key c)).
    { intros c [(_ & (nb & na & V & PP) & C1 & C2)|[Q _]] Q'; [exists nb, na; auto|exact (NR _ Q' Q)]. }
    assert (CR : forall c, cert_policy E g rt (in_t2 i) x c -> rt = RT_REVOKE -> cert_signed_by E c (public_key (cf_cert g))).
    { intros c [(Q & _)|[_ Q]] Q'; [exact (NR _ Q Q')|exact Q]. }
    destruct R as [V NW|W NC IP|p W NC IP|c W C|peer c W C NE K|peer c (W & C & NE & K) N|peer c nb na (W & C & NE & K & N) T V PP|peer c nb na (W & C & NE & K & N) T V PP CS|peer c nb na (W & C & NE & K & N) T V PP CS SB|peer c (W & C & NE & K & N) T CS|peer c (W & C & NE & K & N) P KD TK];
    destruct R' as [V' NW'|W' NC' IP'|p' W' NC' IP'|c' W' C'|peer' c' W' C' NE' K'|peer' c' (W' & C' & NE' & K') N'|peer' c' nb' na' (W' & C' & NE' & K' & N') T' V' PP'|peer' c' nb' na' (W' & C' & NE' & K' & N') T' V' PP' CS'|peer' c' nb' na' (W' & C' & NE' & K' & N') T' V' PP' CS' SB'|peer' c' (W' & C' & NE' & K' & N') T' CS'|peer' c' (W' & C' & NE' & K' & N') P' KD' TK'];
    try (split; reflexivity); exfalso; try contradiction; try congruence;
    try (match goal with H : forall peer c, ~ carries E rt x peer c, C0 : carries E rt x ?p ?c |- _ => exact (H p c C0) end);
    try (destruct (carries_one rt x _ _ _ _ RT C C') as [-> ->]; try contradiction; try congruence;
         try (exact (NR _ T T')); try (exact (NR _ T' T)); try (rewrite V in V'; injection V' as -> ->; contradiction)).
    all: try (destruct (CP _ P T') as (nb & na & V0 & PP0 & C1 & C2); rewrite V' in V0; injection V0 as -> ->; contradiction).
    all: try (destruct (CP _ P' T) as (nb0 & na0 & V0 & PP0 & C1 & C2); rewrite V in V0; injection V0 as -> ->; contradiction).
    all: try (exact (CS (CR _ P' T))).
    all: try (exact (CS' (CR _ P T'))).
    all: destruct (carries_one rt x _ _ _ _ RT C C') as [Q _]; subst; contradiction.
  Qed.

  (** What the code answers. *)
  Lemma on_new_exact : forall add_ok idkey i rt x (taken : bytes -> Prop), rt = RT_NEW \/ rt = RT_REVOKE -> suffix_limit_sane g ->
    (forall peer c, carries E rt x peer c -> add_ok (created E g i rt (id_for E idkey (c_name c)) peer c) = false -> taken (id_for E idkey (c_name c))) ->
    (exists code text, on_new E g add_ok idkey i rt x = put_error E g x code text /\ plain_error code text /\ refused E g i rt idkey taken x code text) \/
    (exists r d, fst (on_new E g add_ok idkey i rt x) = [EAdd r; EPut d; ECallback r]) \/ on_new E g add_ok idkey i rt x = ([], Exn).
  Proof.
    intros add_ok idkey i rt x taken RT SANE TK.
    assert (PUT : forall code text, plain_error code text -> refused E g i rt idkey taken x code text -> 
      exists code' text', put_error E g x code text = put_error E g x code' text' /\ plain_error code' text' /\ refused E g i rt idkey taken x code' text').
    { intros code text PE R. exists code, text. auto. }
    unfold on_new, cert_is_valid. destruct (c_validity (cf_cert g)) as [[nb na]|] eqn:CV; [|auto].
    assert (W : within (in_t1 i) (c_validity (cf_cert g)) <-> (nb <=? in_t1 i)%Z && (in_t1 i <=? na)%Z = true).
    { rewrite CV. rewrite andb_true_iff, !Z.leb_le. split; [intros (a & b & Q & L); injection Q as <- <-; exact L|intros L; exists nb, na; auto]. }
    destruct ((nb <=? in_t1 i)%Z && (in_t1 i <=? na)%Z); [|left; apply PUT; [perr|]; apply rw_ca; [congruence|intros Q; apply W in Q; discriminate]].
    assert (W' : within (in_t1 i) (c_validity (cf_cert g))) by (apply W; reflexivity).
    destruct (req_decode_total E rt (params_of x)) as [NU NH].
    assert (CD : forall peer c, carries E rt x peer c <-> req_decode E rt (params_of x) = Ok (peer, c)) by (intros; apply carries_decode; exact RT).
    destruct (req_decode E rt (params_of x)) as [[peer c]| | |] eqn:D; try contradiction.
    2:{ assert (NC : forall peer c, ~ carries E rt x peer c) by (intros peer c Q; apply CD in Q; discriminate).
        left. destruct (i_params x) as [p|] eqn:IP; (apply PUT; [perr|]); [exact (rw_params E g i rt idkey taken x p W' NC IP)|exact (rw_no_params E g i rt idkey taken x W' NC IP)]. }
    assert (C : carries E rt x peer c) by (apply CD; reflexivity).
    destruct peer as [|p0 pr] eqn:PQ; [left; apply PUT; [perr|]; exact (rw_empty_key E g i rt idkey taken x c W' C)|]. rewrite <- PQ in *.
    assert (NE : peer <> []) by (subst; discriminate). clear PQ p0 pr.
    unfold derive_secret. destruct (o_ecdh E (in_sk i) peer) as [rc secret] eqn:EC.
    destruct (Z.eqb_spec rc 0) as [RC|RC]; [left; apply PUT; [perr|]; apply (rw_bad_key E g i rt idkey taken x peer c W' C NE); rewrite EC; exact RC|].
    assert (RD : readable E g i rt x peer c) by (repeat (split; [assumption|]); rewrite EC; exact RC).
    destruct (name_allowed g (c_name c)) eqn:NA; cbn [negb].
    2:{ left. apply PUT; [perr|]. apply (rw_name E g i rt idkey taken x peer c RD). intros Q. rewrite (policy_name_allowed g _ SANE Q) in NA. discriminate. }
    assert (US : usable E g i rt x peer c) by (destruct RD as (R1 & R2 & R3 & R4); repeat (split; [assumption|]); apply name_allowed_policy; exact NA).
    set (id := request_id_of E idkey (c_name c)).
    assert (KEY : forall h, h = match hkdf E secret (rnd_salt i) id with
        | Exn => ([], Exn) | UB => ([], UB) | Hang => ([], Hang)
        | Ok key => let r := new_request g id rt c key in
            if negb (add_ok r) then put_error E g x INVALID_PARAMETER (bs "Duplicate Request ID: The same request has been seen before.")
            else ([EAdd r; EPut (reply_data E g (i_name x) (reply_encode (o_ecdh_pub E (in_sk i)) (rnd_salt i) id (p_challenges (cfp g)))); ECallback r], Ok tt) end ->
      cert_policy E g rt (in_t2 i) x c ->
      (exists code text, h = put_error E g x code text /\ plain_error code text /\ refused E g i rt idkey taken x code text) \/
      (exists r d, fst h = [EAdd r; EPut d; ECallback r]) \/ h = ([], Exn)).
    { intros h -> CP. unfold hkdf. destruct (o_hkdf E secret (rnd_salt i) id) as [hrc key] eqn:HK. destruct (Z.eqb_spec hrc 0) as [HR|HR]; [auto|]. cbv zeta.
      assert (NR : new_request g id rt c key = created E g i rt id peer c) by (unfold new_request, created, session_key; rewrite EC; cbn [snd]; rewrite HK; reflexivity).
      rewrite NR. destruct (add_ok (created E g i rt id peer c)) eqn:AO; cbn [negb]; [right; left; eexists; eexists; reflexivity|]. left. apply PUT; [perr|].
      apply (rw_taken E g i rt idkey taken x peer c US CP); [|exact (TK peer c C AO)]. unfold key_derivable. change (id_for E idkey (c_name c)) with id. rewrite EC. cbn [snd]. rewrite HK. exact HR. }
    unfold type_checks. destruct (N.eqb_spec rt RT_NEW) as [R1|R1].
    - destruct (c_validity c) as [[cnb cna]|] eqn:V; cbn [of_opt bind fst snd]; [|auto].
      destruct (period_allowed g (in_t2 i) cnb cna) eqn:PA; cbn [negb].
      2:{ left. apply PUT; [perr|]. apply (rw_period E g i rt idkey taken x peer c cnb cna US R1 V). intros Q. apply period_allowed_iff in Q. congruence. }
      apply period_allowed_iff in PA. destruct (verify_cert E c c) eqn:VC; cbn [negb]; [|left; apply PUT; [perr|]; exact (rw_self E g i rt idkey taken x peer c cnb cna US R1 V PA (not_true _ VC))].
      destruct (verify_interest E x c) eqn:VI; cbn [negb].
      2:{ left. apply PUT; [perr|]. apply (rw_interest E g i rt idkey taken x peer c cnb cna US R1 V PA VC). intros Q. apply verify_interest_iff in Q. congruence. }
      apply (KEY _ eq_refl). left. split; [exact R1|]. split; [exists cnb, cna; auto|]. split; [exact VC|apply verify_interest_iff; exact VI].
    - destruct RT as [RT|RT]; [contradiction|]. assert (RB : (rt =? RT_REVOKE) = true) by (rewrite RT; apply N.eqb_refl). rewrite RB.
      destruct (verify_cert E c (cf_cert g)) eqn:VC; cbn [negb]; [apply (KEY _ eq_refl); right; auto|].
      left. apply PUT; [perr|]. exact (rw_revoke E g i rt idkey taken x peer c US RT (not_true _ VC)).
  Qed.

  (** A refused Interest is neither accepted nor fatal. *)
  Lemma refused_not_admissible : forall i rt idkey (taken : bytes -> Prop) x code text peer c, rt = RT_NEW \/ rt = RT_REVOKE -> refused E g i rt idkey taken x code text ->
    admissible E g i rt (id_for E idkey (c_name c)) x peer c -> ~ taken (id_for E idkey (c_name c)) -> False.
  Proof.
    intros i rt idkey taken x code text peer' c' RT R [W' C' NE' K' N' P' KD'] NT.
    assert (NR : forall P : Prop, rt = RT_NEW -> rt = RT_REVOKE -> P) by (intros P Q1 Q2; rewrite Q1 in Q2; discriminate).
    destruct R as [V NW|W NC IP|p W NC IP|c W C|peer c W C NE K|peer c (W & C & NE & K) N|peer c nb na (W & C & NE & K & N) T V PP|peer c nb na (W & C & NE & K & N) T V PP CS|peer c nb na (W & C & NE & K & N) T V PP CS SB|peer c (W & C & NE & K & N) T CS|peer c (W & C & NE & K & N) P KD TK];
      try contradiction; try (exact (NC _ _ C')); destruct (carries_one rt x _ _ _ _ RT C C') as [Q1 Q2]; subst peer' c'; try contradiction.
    - destruct P' as [(_ & (a & b & Q & PP') & _)|[Q _]]; [rewrite V in Q; injection Q as <- <-; contradiction|exact (NR _ T Q)].
    - destruct P' as [(_ & _ & Q & _)|[Q _]]; [contradiction|exact (NR _ T Q)].
    - destruct P' as [(_ & _ & _ & Q)|[Q _]]; [contradiction|exact (NR _ T Q)].
    - destruct P' as [(Q & _)|[_ Q]]; [exact (NR _ Q T)|contradiction].
  Qed.
  Lemma refused_not_upset : forall i rt idkey (taken : bytes -> Prop) x code text, rt = RT_NEW \/ rt = RT_REVOKE -> refused E g i rt idkey taken x code text -> new_upsets E g i rt idkey x -> False.
  Proof.
    intros i rt idkey taken x code text RT R U.
    assert (NR : forall P : Prop, rt = RT_NEW -> rt = RT_REVOKE -> P) by (intros P Q1 Q2; rewrite Q1 in Q2; discriminate).
    assert (WN : forall t, within t (c_validity (cf_cert g)) -> c_validity (cf_cert g) <> None) by (intros t (a & b & Q & _); congruence).
    destruct U as [VN|peer' c' (W' & C' & NE' & K' & N') T' V'|peer' c' (W' & C' & NE' & K' & N') P' KD'].
    - destruct R as [V NW|W NC IP|p W NC IP|c W C|peer c W C NE K|peer c (W & C & NE & K) N|peer c nb na (W & C & NE & K & N) T V PP|peer c nb na (W & C & NE & K & N) T V PP CS|peer c nb na (W & C & NE & K & N) T V PP CS SB|peer c (W & C & NE & K & N) T CS|peer c (W & C & NE & K & N) P KD TK];
        try contradiction; exact (WN _ W VN).
    - destruct R as [V NW|W NC IP|p W NC IP|c W C|peer c W C NE K|peer c (W & C & NE & K) N|peer c nb na (W & C & NE & K & N) T V PP|peer c nb na (W & C & NE & K & N) T V PP CS|peer c nb na (W & C & NE & K & N) T V PP CS SB|peer c (W & C & NE & K & N) T CS|peer c (W & C & NE & K & N) P KD TK];
        try contradiction; try (exact (NC _ _ C')); destruct (carries_one rt x _ _ _ _ RT C C') as [Q1 Q2]; subst peer' c'; try contradiction; try congruence; [exact (NR _ T' T)|].
      destruct P as [(_ & (a & b & Q & PP') & _)|[Q _]]; [congruence|exact (NR _ T' Q)].
    - destruct R as [V NW|W NC IP|p W NC IP|c W C|peer c W C NE K|peer c (W & C & NE & K) N|peer c nb na (W & C & NE & K & N) T V PP|peer c nb na (W & C & NE & K & N) T V PP CS|peer c nb na (W & C & NE & K & N) T V PP CS SB|peer c (W & C & NE & K & N) T CS|peer c (W & C & NE & K & N) P KD TK];
        try contradiction; try (exact (NC _ _ C')); destruct (carries_one rt x _ _ _ _ RT C C') as [Q1 Q2]; subst peer' c'; try contradiction.
      + destruct P' as [(_ & (a & b & Q & PP') & _)|[Q _]]; [rewrite V in Q; injection Q as <- <-; contradiction|exact (NR _ T Q)].
      + destruct P' as [(_ & _ & Q & _)|[Q _]]; [contradiction|exact (NR _ T Q)].
      + destruct P' as [(_ & _ & _ & Q)|[Q _]]; [contradiction|exact (NR _ T Q)].
      + destruct P' as [(Q & _)|[_ Q]]; [exact (NR _ Q T)|contradiction].
  Qed.

  Lemma told : forall x code text (d : data), plain_error code text -> told_error E g x code text (error_data E g (i_name x) code text) /\
    (forall code' text', told_error E g x code' text' (error_data E g (i_name x) code text) -> code' = code /\ text' = text) /\ d = d.
  Proof.
    intros x code text d PE. destruct (plain_fits _ _ PE) as (_ & A & B).
    assert (D : err_decode (d_content (error_data E g (i_name x) code text)) = (code, text)) by (apply err_roundtrip; [apply (N.le_lt_trans _ _ _ A); reflexivity|exact B]).
    split; [split; [reflexivity|]; split; [reflexivity|exact D]|]. split; [|reflexivity]. intros code' text' (_ & _ & Q). rewrite D in Q. injection Q; auto.
  Qed.
  Lemma refused_iff : forall s i rt x code text, ca_at E g ops s -> suffix_limit_sane g -> rt = RT_NEW \/ rt = RT_REVOKE -> addressed g (verb_of rt) (i_name x) ->
    (exists d, step E g ops s (EvInterest i x) = Some (s, [EPut d]) /\ told_error E g x code text d) <-> refused E g i rt (ca_idkey s) (fun id => pending ops s id <> None) x code text.
  Proof.
    intros s i rt x code text A SANE RT AD. set (taken := fun id => pending ops s id <> None).
    pose proof (on_interest_new E g S ops s i rt x RT AD) as OI. set (add_ok := fun r => match s_add ops (ca_store s) r with Some _ => true | None => false end) in *.
    assert (TK : forall peer c, carries E rt x peer c -> add_ok (created E g i rt (id_for E (ca_idkey s) (c_name c)) peer c) = false -> taken (id_for E (ca_idkey s) (c_name c))).
    { intros peer c C AO P. apply (add_pending E g S ops s i rt _ x peer c A RT C) in P. unfold add_ok in AO. rewrite P in AO. discriminate. }
    assert (ACC : forall r d, fst (on_interest E g ops s i x) = [EAdd r; EPut d; ECallback r] -> forall d', step E g ops s (EvInterest i x) <> Some (s, [EPut d'])).
    { intros r d Q d' ST. cbn [step] in ST. destruct (on_interest E g ops s i x) as [es o]. cbn [fst] in Q. subst es. destruct o; congruence. }
    destruct (on_new_exact add_ok (ca_idkey s) i rt x taken RT SANE TK) as [(code0 & text0 & Q & PE & R)|[(r & d & Q)|Q]].
    - rewrite Q in OI. unfold put_error in OI. pose proof (ok_step E g S ops s i x _ OI) as ST. destruct (told x code0 text0 (error_data E g (i_name x) code0 text0) PE) as (T1 & T2 & _). split.
      + intros (d & ST' & T). assert (d = error_data E g (i_name x) code0 text0) by congruence. subst d. destruct (T2 code text T) as [-> ->]. exact R.
      + intros R'. destruct (refused_one i rt (ca_idkey s) taken x _ _ _ _ RT R R') as [-> ->]. exists (error_data E g (i_name x) code0 text0). split; [|exact T1]. rewrite ST. destruct s; reflexivity.
    - split; [intros (d' & ST & _); exfalso; rewrite <- OI in Q; exact (ACC r d Q d' ST)|]. intros R'. exfalso.
      destruct (on_new E g add_ok (ca_idkey s) i rt x) as [es o] eqn:ON. cbn [fst] in Q. destruct (on_new_cases E g add_ok (ca_idkey s) i rt x es o RT ON) as [(peer & c & ADM & AO & _)|[(code0 & text0 & _ & Q' & _)|(_ & Q' & _)]]; try congruence.
      refine (refused_not_admissible i rt (ca_idkey s) taken x code text peer c RT R' ADM _). intros NT. apply NT.
      apply (add_pending E g S ops s i rt _ x peer c A RT (ad_params _ _ _ _ _ _ _ _ ADM)). exact AO.
    - split.
      + intros (d' & ST & _). exfalso. cbn [step] in ST. rewrite OI, Q in ST. congruence.
      + intros R'. exfalso. refine (refused_not_upset i rt (ca_idkey s) taken x code text RT R' _). apply (new_throws_iff add_ok (ca_idkey s) i rt x RT SANE). rewrite Q. reflexivity.
  Qed.
  (** Every NEW or REVOKE Interest is accepted, refused for one reason, or listed under [new_upsets]. *)
  Lemma decided : forall s i rt x, ca_at E g ops s -> suffix_limit_sane g -> rt = RT_NEW \/ rt = RT_REVOKE ->
    let idkey := ca_idkey s in let taken := fun id => pending ops s id <> None in
    ((exists peer c, admissible E g i rt (id_for E idkey (c_name c)) x peer c /\ pending ops s (id_for E idkey (c_name c)) = None) \/
     (exists code text, refused E g i rt idkey taken x code text) \/ new_upsets E g i rt idkey x) /\
    (forall code text, refused E g i rt idkey taken x code text ->
       (forall peer c, admissible E g i rt (id_for E idkey (c_name c)) x peer c -> pending ops s (id_for E idkey (c_name c)) <> None) /\ ~ new_upsets E g i rt idkey x /\
       (forall code' text', refused E g i rt idkey taken x code' text' -> code' = code /\ text' = text)).
  Proof.
    intros s i rt x A SANE RT idkey taken. split.
    - set (add_ok := fun r => match s_add ops (ca_store s) r with Some _ => true | None => false end).
      assert (TK : forall peer c, carries E rt x peer c -> add_ok (created E g i rt (id_for E (ca_idkey s) (c_name c)) peer c) = false -> taken (id_for E (ca_idkey s) (c_name c))).
      { intros peer c C AO P. apply (add_pending E g S ops s i rt _ x peer c A RT C) in P. unfold add_ok in AO. rewrite P in AO. discriminate. }
      destruct (on_new_exact add_ok idkey i rt x taken RT SANE TK) as [(code0 & text0 & Q & PE & R)|[(r & d & Q)|Q]].
      + right. left. exists code0, text0. exact R.
      + left. destruct (on_new E g add_ok idkey i rt x) as [es o] eqn:ON. cbn [fst] in Q.
        destruct (on_new_cases E g add_ok idkey i rt x es o RT ON) as [(peer & c & ADM & AO & _)|[(code0 & text0 & _ & Q' & _)|(_ & Q' & _)]]; try congruence.
        exists peer, c. split; [exact ADM|]. apply (add_pending E g S ops s i rt _ x peer c A RT (ad_params _ _ _ _ _ _ _ _ ADM)). exact AO.
      + right. right. apply (new_throws_iff add_ok idkey i rt x RT SANE). rewrite Q. reflexivity.
    - intros code text R. split; [|split].
      + intros peer c ADM NT. exact (refused_not_admissible i rt idkey taken x code text peer c RT R ADM (fun F => F NT)).
      + intros U. exact (refused_not_upset i rt idkey taken x code text RT R U).
      + intros code' text' R'. exact (refused_one i rt idkey taken x code text code' text' RT R R').
  Qed.
  Lemma turned_iff : forall s i x code text, ca_at E g ops s -> addressed g VChallenge (i_name x) ->
    (exists d, step E g ops s (EvInterest i x) = Some (s, [EPut d]) /\ told_error E g x code text d) <-> turned_away E g ops s x code text.
  Proof.
    intros s i x code text A AD. pose proof (on_interest_at E g S ops _ s i x AD) as OI. cbn [handle] in OI. unfold on_challenge in OI.
    assert (LEAF : forall code0 text0, plain_error code0 text0 -> on_interest E g ops s i x = put_error E g x code0 text0 -> turned_away E g ops s x code0 text0 ->
      (forall code' text', turned_away E g ops s x code' text' -> code' = code0 /\ text' = text0) ->
      (exists d, step E g ops s (EvInterest i x) = Some (s, [EPut d]) /\ told_error E g x code text d) <-> turned_away E g ops s x code text).
    { intros code0 text0 PE Q T U. pose proof (ok_step E g S ops s i x _ Q) as ST. destruct (told x code0 text0 (error_data E g (i_name x) code0 text0) PE) as (T1 & T2 & _). split.
      - intros (d & ST' & T'). assert (d = error_data E g (i_name x) code0 text0) by congruence. subst d. destruct (T2 code text T') as [-> ->]. exact T.
      - intros T'. destruct (U _ _ T') as [-> ->]. exists (error_data E g (i_name x) code0 text0). split; [|exact T1]. rewrite ST. destruct s; reflexivity. }
    assert (ID1 : forall id id', names_request g id x -> names_request g id' x -> id' = id).
    { intros id id' N N'. apply (challenge_id_names g x id AD) in N. apply (challenge_id_names g x id' AD) in N'. congruence. }
    assert (NID : i_name x = p_prefix (cfp g) ++ [gc (bs "CA"); gc (bs "CHALLENGE")] -> challenge_id g (i_name x) = Exn).
    { intros Q. unfold challenge_id. rewrite Q. rewrite nth_error_app2 by lia. replace (length (p_prefix (cfp g)) + 2 - length (p_prefix (cfp g)))%nat with 2%nat by lia. reflexivity. }
    destruct (challenge_id g (i_name x)) as [id| | |] eqn:CI.
    - apply (challenge_id_names g x id AD) in CI. rename CI into N. change (s_get ops (ca_store s) id) with (pending ops s id) in OI.
      assert (NQ : i_name x <> p_prefix (cfp g) ++ [gc (bs "CA"); gc (bs "CHALLENGE")]) by (intros Q; discriminate (NID Q)).
      destruct (pending ops s id) as [r|] eqn:P.
      2:{ refine (LEAF _ _ _ OI (ta_unknown E g ops s x id N P) _); [perr|]. intros code' text' [Q|id' N' P'|id' r' N' P' NS]; auto. exfalso. rewrite (ID1 _ _ N N') in P'. congruence. }
      destruct (verify_interest E x (rq_cert r)) eqn:V; cbn [negb] in OI.
      2:{ assert (NS : ~ signed_by E x (public_key (rq_cert r))) by (intros Q; apply verify_interest_iff in Q; congruence).
          refine (LEAF _ _ _ OI (ta_signature E g ops s x id r N P NS) _); [perr|]. intros code' text' [Q|id' N' P'|id' r' N' P' NS']; auto; exfalso; [contradiction|]. rewrite (ID1 _ _ N N') in P'. congruence. }
      pose proof (proj1 (verify_interest_iff E x (rq_cert r)) V) as SB. split.
      + intros (d & ST & T). exfalso. destruct (pending_chal_step E g S ops s _ s _ i x id r A ST eq_refl N P) as (nrm & m & NO & _ & _ & CS & Z).
        remember [EPut d] as es eqn:ES. destruct CS as [es1 F|info FI NS|code1 info1 tail SB' PE C|params ty dv cs em payload r4 tail SB' OP K MV CE C|params ty dv cs c0 PF RT IC|params ty dv cs c0 tail PF RT IC T'|params ty dv cs tail PF RT T']; try discriminate ES.
        * subst es1. inversion F as [|? ? Q]. exact Q.
        * contradiction.
        * destruct em; discriminate ES.
      + intros [Q|id' N' P'|id' r' N' P' NS]; exfalso; [contradiction| |]; rewrite (ID1 _ _ N N') in P'; [congruence|]. assert (r' = r) by congruence. subst r'. contradiction.
    - pose proof AD as [rest Q]. cbn [verb_comps app] in Q. destruct rest as [|c rest].
      2:{ exfalso. unfold challenge_id in CI. rewrite Q in CI. rewrite nth_error_app2 in CI by lia. replace (length (p_prefix (cfp g)) + 2 - length (p_prefix (cfp g)))%nat with 2%nat in CI by lia. cbn [nth_error] in CI. destruct (blen (t_val c) =? 8); discriminate. }
      refine (LEAF _ _ _ OI (ta_nothing E g ops s x Q) _); [perr|]. intros code' text' [Q'|id' N' P'|id' r' N' P' NS']; auto. exfalso. apply (challenge_id_names g x id' AD) in N'. congruence.
    - split.
      + intros (d & ST & _). exfalso. cbn [step] in ST. rewrite OI in ST. congruence.
      + intros [Q|id' N' P'|id' r' N' P' NS']; exfalso; [discriminate (NID Q)|apply (challenge_id_names g x id' AD) in N'; congruence..].
    - exfalso. unfold challenge_id in CI. destruct (nth_error _ _); [destruct (_ =? 8)|]; discriminate.
  Qed.
End Refused.
