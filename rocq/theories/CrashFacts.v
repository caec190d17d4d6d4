(** The Interests that bring a CA down. *)
From Verif Require Export PolicyFacts ChalProps Spec_Crash VerdictFacts.
From Coq Require Import Lia.
Local Open Scope N_scope.

(** ** The challenge modules *)
(** The code of a challenge that waits for one is on record. *)
Definition coded (cs : cstate) : Prop := wants_code cs -> exists code, sec_get (bs "code") (cs_secrets cs) = Some code.
Lemma pending_coded : forall E g S (ops : store_ops S) s id r cs, ca_at E g ops s -> pending ops s id = Some r -> rq_cs r = Some cs -> coded cs.
Proof.
  intros E g S ops s id r cs A P C W. destruct (history_of _ _ _ _ _ A) as (tr & H).
  destruct (has_origin S E g ops tr s id r H P) as (a1 & new & a2 & -> & AC & NA & CSO).
  destruct (CSO cs C) as (b1 & st1 & b2 & i0 & p0 & ty0 & cs0 & -> & (AK & r1 & em & STT & RC & RP & EM) & SE & ST & _).
  destruct STT as [code G|code addr G GA|c CI CC T]; cbn [cs_status cs_secrets] in *.
  - exists code. rewrite SE. reflexivity.
  - exists code. rewrite SE. reflexivity.
  - exfalso. destruct ST as [ST|[Q ST]]; [unfold wants_code in W; rewrite ST in W; destruct W as [W|W]; discriminate|discriminate Q].
Qed.

Lemma check_throws : forall ty life msg now t2 params r, (forall cs, rq_cs r = Some cs -> coded cs) ->
  h_out (check_code ty life msg now t2 params r) = Exn <-> exists cs, rq_cs r = Some cs /\ wants_code cs /\ get T_ParameterValue params = None.
Proof.
  intros ty life msg now t2 params r CD. unfold check_code. destruct (rq_cs r) as [cs|] eqn:C; [|split; [discriminate|intros (cs & Q & _); discriminate]].
  destruct (bytes_eqb (cs_status cs) NEED_CODE || bytes_eqb (cs_status cs) WRONG_CODE) eqn:W.
  2:{ split; [discriminate|]. intros (cs' & Q & W' & _). injection Q as ->. apply wants_iff in W'. congruence. }
  apply wants_iff in W. destruct (get T_ParameterValue params) as [t|]; [|split; [intros _; exists cs; auto|reflexivity]].
  split; [|intros (? & _ & _ & Q); discriminate]. intros H. exfalso. destruct (sec life <=? now - cs_time cs)%Z; [discriminate|].
  destruct (CD cs eq_refl W) as (code & SC). change K_CODE with (bs "code") in H. rewrite SC in H.
  destruct (bytes_eqb (t_val t) code); [discriminate|]. destruct (1 <? cs_tries cs); discriminate.
Qed.

Lemma proves_fun : forall E cs c' nonce' c nonce, codec_laws E -> proves E cs c' nonce' -> wf_cert c' -> proves E cs c nonce -> wf_cert c -> c' = c.
Proof.
  intros E cs c' nonce' c nonce LC (_ & SEC') WF' (_ & SEC) WF. rewrite SEC in SEC'. fold (possession_secrets E nonce c) in SEC'. fold (possession_secrets E nonce' c') in SEC'.
  destruct (secrets_get E nonce c) as [G1 G2]. destruct (secrets_get E nonce' c') as [G1' G2']. rewrite SEC' in G2. rewrite G2' in G2.
  apply some_inj in G2. apply (f_equal from_hex) in G2. rewrite !from_to_hex in G2. apply some_inj, cert_tlv_inj in G2.
  pose proof (l_cert_codec E LC c' WF') as U'. pose proof (l_cert_codec E LC c WF) as U. rewrite G2 in U'. congruence.
Qed.
Lemma poss_inv : forall E cfg i params r, challenge_throws E cfg i params r (bs "possession") ->
  cc_anchors cfg = Exn \/
  (exists anchors c, cc_anchors cfg = Ok anchors /\ ~ garbled E params /\ rq_status r = ST_BEFORE /\ credential E params c /\
    (forall p, ~ proof params p) /\ (c_keyloc c = None \/ o_pubkey_ok E (public_key c) = false)) \/
  (exists anchors cs c nonce p, cc_anchors cfg = Ok anchors /\ ~ garbled E params /\ rq_status r <> ST_BEFORE /\ rq_cs r = Some cs /\
    proves E cs c nonce /\ wf_cert c /\ (forall c', ~ credential E params c') /\ proof params p /\
    (cert_ok c = false \/ o_pubkey_ok E (public_key c) = false)).
Proof.
  intros E cfg i params r H. remember (bs "possession") as ty eqn:T. destruct H as [ty life cs CL| | | | | ]; try discriminate T.
  - subst ty. destruct (life_excl _ _ CL eq_refl).
  - left. assumption.
  - right. left. exists anchors, c. auto 10.
  - right. right. exists anchors, cs, c, nonce, p. auto 20.
Qed.
Lemma possession_throws : forall E cfg i params r, codec_laws E -> params <> [] -> (forall cs, rq_cs r = Some cs -> kept E cs) ->
  h_out (handle_possession E cfg i params r) = Exn <-> challenge_throws E cfg i params r (bs "possession").
Proof.
  intros E cfg i params r LC NE KP.
  unfold handle_possession. destruct (cc_anchors cfg) as [anchors| | |] eqn:A.
  2: split; [intros _; exact (throw_anchors E cfg i params r A)|reflexivity].
  2-3: split; [discriminate|]; intros H; exfalso; destruct (poss_inv _ _ _ _ _ H) as [Q|[(? & ? & Q & _)|(? & ? & ? & ? & ? & Q & _)]]; congruence.
  destruct params as [|p0 ps] eqn:PS; [contradiction|]. rewrite <- PS in *. clear p0 ps PS.
  destruct (loop_exact E params None []) as [[Q G]|[Q G]]; rewrite Q; clear Q.
  { split; [discriminate|]. intros H. exfalso. destruct (poss_inv _ _ _ _ _ H) as [Q|[(? & ? & _ & Q & _)|(? & ? & ? & ? & ? & _ & Q & _)]]; [congruence|exact (Q G)|exact (Q G)]. }
  pose proof (cred_known E params G) as CK. pose proof (cred_is E params) as CI. pose proof (proof_is params) as PI. clear NE.
  set (cred := after E params None) in *. set (pf := afterp params []) in *. clearbody cred pf.
  assert (PN : pf = [] -> forall p, ~ proof params p) by (intros Q p H; apply PI in H as [H1 H2]; congruence).
  assert (PY : pf <> [] -> proof params pf) by (intros Q; apply PI; auto).
  assert (CN : has_content cred = false -> forall c, ~ credential E params c) by (intros Q c H; rewrite (proj2 CK (ex_intro _ c H)) in Q; discriminate).
  destruct (N.eqb_spec (rq_status r) ST_BEFORE) as [ST|ST].
  - assert (NOC : (has_content cred = false \/ pf <> []) -> h_out (ret_error r BAD_INTEREST_FORMAT (bs "Cannot find certificate") None) = Exn <-> challenge_throws E cfg i params r (bs "possession")).
    { intros CASE. split; [discriminate|]. intros H. exfalso. destruct (poss_inv _ _ _ _ _ H) as [Q|[(an & c & A' & G' & ST' & CR & NP & D)|(? & ? & ? & ? & ? & _ & _ & Q & _)]]; [congruence| |exact (Q ST)].
      destruct CASE as [Q|Q]; [exact (CN Q c CR)|exact (NP pf (PY Q))]. }
    destruct cred as [c|]; [|destruct pf; apply NOC; left; reflexivity]. destruct (has_content (Some c)) eqn:HC; [|destruct pf; apply NOC; left; reflexivity].
    destruct pf as [|b pf]; [|apply NOC; right; discriminate]. clear NOC.
    assert (CR : credential E params c) by (apply CI; split; [reflexivity|]; cbn [has_content] in HC; destruct (c_content c); discriminate).
    assert (CU : forall c', credential E params c' -> c' = c) by (intros c' H; apply CI in H as [H _]; congruence).
    assert (TH : c_keyloc c = None \/ o_pubkey_ok E (public_key c) = false -> challenge_throws E cfg i params r (bs "possession")).
    { intros D. exact (throw_credential E cfg i params r anchors c A G ST CR (PN eq_refl) D). }
    destruct (c_keyloc c) as [loc|] eqn:KL; [|split; [intros _; apply TH; auto|reflexivity]].
    destruct (o_pubkey_ok E (public_key c)) eqn:PK; cbn [negb]; [|split; [intros _; apply TH; auto|reflexivity]].
    split; [destruct (existsb (anchor_ok E c loc) anchors); discriminate|]. intros H. exfalso.
    destruct (poss_inv _ _ _ _ _ H) as [Q|[(an & c' & A' & G' & ST' & CR' & NP & D)|(? & ? & ? & ? & ? & _ & _ & Q & _)]]; [congruence| |exact (Q ST)]. rewrite (CU c' CR') in D. destruct D; congruence.
  - assert (UNEXP : (forall cs, rq_cs r = Some cs -> cs_status cs <> bs "need-proof") ->
      h_out (ret_error r INVALID_PARAMETER (bs "Fail to recognize the request.") None) = Exn <-> challenge_throws E cfg i params r (bs "possession")).
    { intros CASE. split; [discriminate|]. intros H. exfalso. destruct (poss_inv _ _ _ _ _ H) as [Q|[(? & ? & _ & _ & Q & _)|(an & cs & c & nonce & p & A' & G' & ST' & C & (SS & _) & _)]]; [congruence|exact (ST Q)|exact (CASE cs C SS)]. }
    destruct (rq_cs r) as [cs|] eqn:C; [|apply UNEXP; discriminate].
    destruct (bytes_eqb (cs_status cs) NEED_PROOF) eqn:W.
    2:{ apply UNEXP. intros cs' Q S. injection Q as <-. apply bytes_eqb_neq in W. exact (W S). }
    clear UNEXP. apply bytes_eqb_eq in W. change NEED_PROOF with (bs "need-proof") in W.
    assert (NOP : (has_content cred = true \/ pf = []) -> h_out (ret_error r BAD_INTEREST_FORMAT (bs "Cannot find certificate") None) = Exn <-> challenge_throws E cfg i params r (bs "possession")).
    { intros CASE. split; [discriminate|]. intros H. exfalso. destruct (poss_inv _ _ _ _ _ H) as [Q|[(? & ? & _ & _ & Q & _)|(an & cs' & c & nonce & p & A' & G' & ST' & C' & PR & WF & NCR & PF & D)]]; [congruence|exact (ST Q)|].
      destruct CASE as [Q|Q]; [destruct (proj1 CK Q) as (c' & Q'); exact (NCR c' Q')|exact (PN Q p PF)]. }
    destruct (has_content cred) eqn:HC; [apply NOP; left; reflexivity|]. destruct pf as [|b pf'] eqn:PFQ; [apply NOP; right; reflexivity|]. rewrite <- PFQ in *. clear NOP.
    assert (PF : proof params pf) by (apply PY; subst; discriminate).
    destruct (KP cs eq_refl W) as (c & nonce & (_ & SEC) & WF & F & U).
    cbv zeta. rewrite SEC. change K_CRED with (bs "issued-cert"). change K_NONCE with (bs "nonce"). destruct (secrets_get E nonce c) as [G1 G2]. unfold possession_secrets in G1, G2. rewrite G1, G2, !from_to_hex, (stored_credential E c F).
    unfold cert_decode, data_decode. change (t_type (cert_tlv E c) =? T_Data) with true. cbv iota. change (t_val (cert_tlv E c)) with (o_cert_wire E c). rewrite U.
    assert (TH : cert_ok c = false \/ o_pubkey_ok E (public_key c) = false -> challenge_throws E cfg i params r (bs "possession")).
    { intros D. exact (throw_proof E cfg i params r anchors cs c nonce pf A G ST C (conj W SEC) WF (CN eq_refl) PF D). }
    destruct (cert_ok c) eqn:OK; [|split; [intros _; apply TH; auto|reflexivity]].
    destruct (o_pubkey_ok E (public_key c)) eqn:PK; cbn [negb]; [|split; [intros _; apply TH; auto|reflexivity]].
    split; [destruct (o_verify E (public_key c) (MRaw nonce) pf); discriminate|]. intros H. exfalso.
    destruct (poss_inv _ _ _ _ _ H) as [Q|[(? & ? & _ & _ & Q & _)|(an & cs' & c' & nonce' & p & A' & G' & ST' & C' & PR & WF' & NCR & PF' & D)]]; [congruence|exact (ST Q)|].
    assert (cs' = cs) by congruence. subst cs'. rewrite (proves_fun E cs c' nonce' c nonce LC PR WF' (conj W SEC) WF) in D. destruct D; congruence.
Qed.

Lemma gen_word : forall ws, (exists code, gen_code ws = Ok code) \/ gen_code ws = Hang.
Proof. intros ws. unfold gen_code. destruct (find accepted_word ws); eauto. Qed.
Lemma gen_stuck : forall ws, gen_code ws = Hang <-> forall w, In w ws -> ~ w mod 2 ^ 32 < 4294 * 1000000.
Proof.
  intros ws. unfold gen_code. destruct (find accepted_word ws) as [w|] eqn:F; split; intros H; try discriminate; try reflexivity.
  - apply List.find_some in F as [I AW]. destruct (H w I). unfold accepted_word in AW. apply N.ltb_lt in AW. exact AW.
  - intros w I. pose proof (List.find_none _ _ F w I) as AW. unfold accepted_word in AW. apply N.ltb_ge in AW. change (4294 * 1000000) with 4294000000. lia.
Qed.

Definition named (r : request) : Prop := get_neg 1 (identity_of (c_name (rq_cert r))) <> None.
Lemma handle_throws : forall E cfg i ty params r, codec_laws E -> params <> [] -> (forall cs, rq_cs r = Some cs -> kept E cs) -> (forall cs, rq_cs r = Some cs -> coded cs) -> named r ->
  (exists h, handle_challenge E cfg i ty params r = Some h /\ h_out h = Exn) <-> challenge_throws E cfg i params r ty.
Proof.
  intros E cfg i ty params r LC NE KP CD NM.
  assert (ONE : forall h, handle_challenge E cfg i ty params r = Some h -> (h_out h = Exn <-> challenge_throws E cfg i params r ty) ->
    (exists h, handle_challenge E cfg i ty params r = Some h /\ h_out h = Exn) <-> challenge_throws E cfg i params r ty).
  { intros h H K. rewrite <- K. split; [intros (h' & H' & R); congruence|]. intros R. exists h. auto. }
  assert (CHK : forall ty' life msg, ty = ty' -> code_life ty' life -> rq_status r <> ST_BEFORE -> h_out (check_code ty' life msg (in_t1 i) (in_t2 i) params r) = Exn <-> challenge_throws E cfg i params r ty').
  { intros ty' life msg TQ CL ST. rewrite (check_throws ty' life msg (in_t1 i) (in_t2 i) params r CD). split.
    - intros (cs & C & W & G). exact (throw_no_code E cfg i params r ty' life cs CL ST C W G).
    - intros H. destruct H as [ty0 l cs CL' ST' C W G|ST'|t code ST'| | | ]; try contradiction; [exists cs; auto|..]; destruct (life_excl _ _ CL eq_refl). }
  unfold handle_challenge in *. destruct (bytes_eqb ty CH_PIN) eqn:B1; [|destruct (bytes_eqb ty CH_EMAIL) eqn:B2; [|destruct (bytes_eqb ty CH_POSSESSION) eqn:B3]].
  - apply bytes_eqb_eq in B1. subst ty. apply (ONE _ eq_refl). unfold handle_pin. destruct (N.eqb_spec (rq_status r) ST_BEFORE) as [ST|ST]; [|apply CHK; [reflexivity|constructor|exact ST]].
    destruct (gen_word (in_words i)) as [(code & G)|G]; rewrite G; (split; [discriminate|]); intros H; exfalso; remember CH_PIN as ty eqn:T; destruct H as [ty0 l cs CL ST'| | | | | ]; try discriminate T; contradiction.
  - apply bytes_eqb_eq in B2. subst ty. apply (ONE _ eq_refl). unfold handle_email. destruct (N.eqb_spec (rq_status r) ST_BEFORE) as [ST|ST]; [|apply CHK; [reflexivity|constructor|exact ST]].
    destruct (get T_ParameterValue params) as [t|] eqn:G; [|split; [intros _; exact (throw_no_address E cfg i params r ST G)|reflexivity]].
    unfold named in NM. destruct (get_neg 1 (identity_of (c_name (rq_cert r)))); [|contradiction].
    assert (INV : challenge_throws E cfg i params r CH_EMAIL -> (exists code, gen_code (in_words i) = Ok code) /\ in_script_ok i = false).
    { intros H. remember CH_EMAIL as ty eqn:T. destruct H as [ty0 l cs CL ST'|? Q|t0 code _ _ GC SO| | | ]; try discriminate T; try contradiction; [congruence|eauto]. }
    destruct (gen_word (in_words i)) as [(code & GC)|GC]; rewrite GC.
    + destruct (in_script_ok i) eqn:SO; [|split; [intros _; exact (throw_script E cfg i params r t code ST G GC SO)|reflexivity]].
      split; [discriminate|]. intros H. apply INV in H as [_ H]. discriminate.
    + split; [discriminate|]. intros H. apply INV in H as [(code & H) _]. congruence.
  - apply bytes_eqb_eq in B3. subst ty. apply (ONE _ eq_refl). exact (possession_throws E cfg i params r LC NE KP).
  - split; [intros (h & Q & _); discriminate|]. intros H. apply bytes_eqb_neq in B1. apply bytes_eqb_neq in B2. apply bytes_eqb_neq in B3. exfalso.
    destruct H as [ty0 l cs CL|?|?|?|?|?]; [destruct CL; [exact (B1 eq_refl)|exact (B2 eq_refl)]|..]; first [exact (B2 eq_refl)|exact (B3 eq_refl)].
Qed.
Lemma handle_hangs : forall E cfg i ty params r, named r -> cc_anchors cfg <> Hang ->
  (exists h, handle_challenge E cfg i ty params r = Some h /\ h_out h = Hang) <->
  rq_status r = ST_BEFORE /\ (ty = bs "pin" \/ ty = bs "email" /\ get T_ParameterValue params <> None) /\ (forall w, In w (in_words i) -> ~ w mod 2 ^ 32 < 4294 * 1000000).
Proof.
  intros E cfg i ty params r NM AH. rewrite <- gen_stuck.
  assert (CHK : forall ty' life msg, h_out (check_code ty' life msg (in_t1 i) (in_t2 i) params r) <> Hang).
  { intros ty' life msg. unfold check_code. destruct (rq_cs r) as [cs|]; [|discriminate]. destruct (_ || _); [|discriminate]. destruct (get T_ParameterValue params); [|discriminate].
    destruct (sec life <=? _)%Z; [discriminate|]. destruct (sec_get K_CODE (cs_secrets cs)); [|discriminate]. destruct (bytes_eqb _ _); [discriminate|]. destruct (1 <? cs_tries cs); discriminate. }
  unfold handle_challenge. destruct (bytes_eqb ty CH_PIN) eqn:B1; [|destruct (bytes_eqb ty CH_EMAIL) eqn:B2; [|destruct (bytes_eqb ty CH_POSSESSION) eqn:B3]].
  - apply bytes_eqb_eq in B1. subst ty. unfold handle_pin. destruct (N.eqb_spec (rq_status r) ST_BEFORE) as [ST|ST].
    + destruct (gen_word (in_words i)) as [(code & G)|G]; rewrite G; split.
      * intros (h & Q & H). injection Q as <-. discriminate.
      * intros (_ & _ & Q). discriminate.
      * intros _. split; [exact ST|]. split; [left; reflexivity|reflexivity].
      * intros _. eexists. split; reflexivity.
    + split; [|intros (Q & _); contradiction]. intros (h & Q & H). injection Q as <-. destruct (CHK _ _ _ H).
  - apply bytes_eqb_eq in B2. subst ty. unfold handle_email. destruct (N.eqb_spec (rq_status r) ST_BEFORE) as [ST|ST].
    + destruct (get T_ParameterValue params) as [t|] eqn:GP.
      2:{ split; [intros (h & Q & H); injection Q as <-; discriminate|]. intros (_ & [Q|[_ Q]] & _); [discriminate|contradiction]. }
      unfold named in NM. destruct (get_neg 1 (identity_of (c_name (rq_cert r)))); [|contradiction].
      destruct (gen_word (in_words i)) as [(code & G)|G]; rewrite G; split.
      * intros (h & Q & H). injection Q as <-. destruct (in_script_ok i); discriminate.
      * intros (_ & _ & Q). discriminate.
      * intros _. split; [exact ST|]. split; [right; split; [reflexivity|discriminate]|reflexivity].
      * intros _. eexists. split; reflexivity.
    + split; [|intros (Q & _); contradiction]. intros (h & Q & H). injection Q as <-. destruct (CHK _ _ _ H).
  - apply bytes_eqb_eq in B3. subst ty. split; [|intros (_ & [Q|[Q _]] & _); discriminate]. intros (h & Q & H). exfalso. injection Q as <-. revert H. unfold handle_possession.
    destruct (cc_anchors cfg); try discriminate; [|contradiction]. destruct params; [discriminate|]. destruct (poss_loop E (t :: params) None []) as [[cred pf]|]; [|discriminate].
    destruct (rq_status r =? ST_BEFORE).
    + repeat match goal with |- context [match ?c with _ => _ end] => destruct c end; discriminate.
    + cbv zeta. repeat match goal with |- context [match ?c with _ => _ end] => destruct c end; discriminate.
  - split; [intros (h & Q & _); discriminate|]. apply bytes_eqb_neq in B1. apply bytes_eqb_neq in B2. intros (_ & [Q|[Q _]] & _); [destruct (B1 Q)|destruct (B2 Q)].
Qed.

(** ** PROBE *)
Definition tame {A} (r : res A) : Prop := r <> UB /\ r <> Hang.
Lemma suffixes_tame : forall E params l ws, tame (suffixes E l ws params).
Proof.
  intros E params. induction l as [|a l IH]; intros ws; cbn [suffixes]; [split; discriminate|]. destruct (match a_kind a with ARandom => _ | _ => _ end) as [w ws'].
  assert (AN : tame (assign_name E a w params)).
  { unfold assign_name. destruct (a_kind a); try (split; discriminate). destruct (assign_param_cases E params (a_format a)) as [(n & -> & _)|[[-> _]|[-> _]]]; split; discriminate. }
  destruct AN as [A1 A2]. destruct (assign_name E a w params); try contradiction; cbn [bind]; [|split; discriminate].
  destruct (IH ws') as [I1 I2]. destruct (suffixes E l ws' params); try contradiction; split; discriminate.
Qed.
Lemma params_loop_tame : forall n els m, (length els <= n)%nat -> tame (probe_params_loop els m).
Proof.
  induction n as [|n IH]; intros els m L; (destruct els as [|a [|b l]]; cbn [length] in L; try (exfalso; lia)); cbn [probe_params_loop]; try (split; discriminate).
  - destruct (is_critical (t_type a)); split; discriminate.
  - destruct (_ && _); [apply IH; lia|]. destruct (is_critical (t_type a)); [split; discriminate|]. apply (IH (b :: l)). cbn [length]. lia.
Qed.
Lemma params_tame : forall b, tame (probe_params_decode b).
Proof. intros b. unfold probe_params_decode. destruct (parse b) as [els|]; cbn [of_opt bind]; [|split; discriminate]. exact (params_loop_tame _ els [] (le_n _)). Qed.
Lemma redirects_null : forall E params l, redirects E l params = UB <-> exists p, In (None, p) l /\ redirects_to p params.
Proof.
  intros E params. induction l as [|[oc p] l IH]; cbn [redirects]; [split; [discriminate|intros (p & [] & _)]|].
  destruct (is_redirecting p params) eqn:R.
  - destruct oc as [c|].
    + transitivity (redirects E l params = UB).
      * destruct (redirects E l params); cbn [bind]; split; intros H; try discriminate; reflexivity.
      * rewrite IH. split; intros (p' & I & T); exists p'; (split; [|exact T]); [right; exact I|]. destruct I as [I|I]; [discriminate|exact I].
    + split; [intros _|reflexivity]. exists p. split; [left; reflexivity|apply redirecting_iff; exact R].
  - rewrite IH. split; intros (p' & I & T); exists p'; (split; [|exact T]); [right; exact I|]. destruct I as [I|I]; [|exact I]. injection I as -> ->. apply redirecting_iff in T. congruence.
Qed.
Lemma redirects_not_hang : forall E params l, redirects E l params <> Hang.
Proof.
  induction l as [|[oc p] l IH]; cbn [redirects]; [discriminate|].
  destruct (is_redirecting p params); [|exact IH]. destruct oc as [c|]; [|discriminate]. destruct (redirects E l params); try discriminate. contradiction.
Qed.
Lemma probe_ends : forall E g i x, (snd (on_probe E g i x) = Ok tt \/ snd (on_probe E g i x) = UB) /\
  (snd (on_probe E g i x) = UB <-> exists params p, probe_params_reads (params_of x) params /\ In (None, p) (cf_redirect (cf g)) /\ redirects_to p params).
Proof.
  intros E g i x. unfold on_probe. destruct (params_tame (params_of x)) as [T1 T2].
  assert (PD : forall m, probe_params_reads (params_of x) m -> probe_params_decode (params_of x) = Ok m) by (intros m H; apply params_decode_iff; exact H).
  pose proof (fun m => proj1 (params_decode_iff (params_of x) m)) as DP.
  destruct (probe_params_decode (params_of x)) as [params| | |]; try contradiction; cbn [bind].
  2:{ split; [left; reflexivity|]. split; [discriminate|]. intros (m & p & R & _). specialize (PD m R). discriminate. }
  pose proof (redirects_null E params (cf_redirect (cf g))) as RN. pose proof (redirects_not_exn E params (cf_redirect (cf g))) as N1. pose proof (redirects_not_hang E params (cf_redirect (cf g))) as N2.
  destruct (redirects E (cf_redirect (cf g)) params) as [reds| | |]; try contradiction; cbn [bind].
  - assert (NO : ~ exists m p, probe_params_reads (params_of x) m /\ In (None, p) (cf_redirect (cf g)) /\ redirects_to p m).
    { intros (m & p & R & I & T). specialize (PD m R). injection PD as <-. discriminate (proj2 RN (ex_intro _ p (conj I T))). }
    match goal with |- context [suffixes E ?l ?ws params] => pose proof (suffixes_tame E params l ws) as [S3 S4]; destruct (suffixes E l ws params) as [sufs| | |] end; try contradiction; cbn [bind].
    + destruct reds, sufs; (split; [left; reflexivity|]); (split; [discriminate|intros Q; destruct (NO Q)]).
    + split; [left; reflexivity|]. split; [discriminate|intros Q; destruct (NO Q)].
  - split; [right; reflexivity|]. split; [intros _|reflexivity]. destruct (proj1 RN eq_refl) as (p & I & T). exists params, p. split; [apply DP; reflexivity|]. auto.
Qed.

Section Crash.
  Context {E : env} {g : ca_cfg} {S : Type} {ops : store_ops S}.

  (** ** Past the challenge module nothing throws *)
  Lemma after_ok : forall s i x id r params ty dv h, ca_at E g ops s -> short_names g ops s -> pending ops s id = Some r ->
    handle_challenge E (cf_chal g) i ty params (set_div dv r) = Some h -> (exists info, h_out h = Ok (NO_ERROR, info)) ->
    snd (after_challenge E g i x (email_effs (h_email h)) (h_req h)) = Ok tt.
  Proof.
    intros s i x id r params ty dv h A [B2 B1] P HC (info & HO). destruct (pending_live E g S ops s id r A P) as [ID LV]. specialize (B1 id r P).
    pose proof (pending_good E g S ops s id r A P) as (_ & _ & GD). pose proof (initial_small E g S ops s id r i A P) as CI.
    assert (MOVE : forall cs em, moves E (cf_chal g) i params (set_div dv r) ty cs em -> snd (after_challenge E g i x (email_effs em) (moved dv ty cs r)) = Ok tt).
    { intros cs em MV. unfold after_challenge. change (rq_status (moved dv ty cs r) =? ST_PENDING) with false. cbv iota.
      destruct (moved_plain E (cf_chal g) i params r dv ty cs em MV) as (nonce & NN & PL).
      destruct (told_size i (moved dv ty cs r) cs nonce (moves_status _ _ _ _ _ _ _ _ MV) NN) as [_ SZ].
      destruct (chal_encode_fine E (moved dv ty cs r) [] [] (rnd_iv i) _ (live_eiv r LV) (rnd_iv_len i) PL ltac:(lia)) as (payload & r3 & CE).
      { change (rq_eiv (moved dv ty cs r)) with (rq_eiv r). lia. }
      rewrite CE. reflexivity. }
    apply hc_cases in HC as [HC _]. destruct HC as [o O|code info1 PE|cs em SB0 ST0|cs cs' SB0 C0 RT0|cs NB C PA]; cbn [h_out h_req h_email] in *.
    - destruct O as [->|[->| ->]]; discriminate.
    - injection HO as -> _. destruct PE as [PE _]. destruct (PE eq_refl).
    - apply (MOVE cs em). left. auto.
    - apply (MOVE cs' None). right. split; [exact SB0|]. split; [reflexivity|]. exists cs. auto.
    - cbn [email_effs]. set (r1 := set_cs None (set_ctype (recorded_type ty) (set_status ST_PENDING (set_div dv r)))). unfold after_challenge.
      change (rq_status r1 =? ST_PENDING) with true. cbv iota. change (rq_type r1) with (rq_type r). pose proof GD as (_ & _ & TY & NP). destruct TY as [RT|RT]; rewrite RT.
      + change ((RT_NEW =? RT_NEW) || (RT_NEW =? RT_RENEW)) with true. cbv iota. destruct (new_validity s id r A P RT) as (v & V).
        assert (IC : exists c, issue_certificate E g (in_version i) r = Ok c) by (unfold issue_certificate; rewrite V; eexists; reflexivity). destruct IC as (c & IC).
        destruct (issued_size r c (in_version i) NP IC B1) as [NE B3].
        change (issue_certificate E g (in_version i) r1) with (issue_certificate E g (in_version i) r). rewrite IC.
        set (r2 := set_status ST_SUCCESS (set_cert c r1)).
        destruct (c_name c) as [|n0 n1] eqn:CN; [contradiction|]. rewrite <- CN in *.
        set (l := [Tlv T_Status (nni_enc ST_SUCCESS); Tlv T_IssuedCertName (name_wire (c_name c)); Tlv T_ForwardingHint (name_wire (p_fwd (cfp g)))]).
        assert (PL : chal_plain r2 (c_name c) (p_fwd (cfp g)) = Ok l) by (unfold chal_plain, l; rewrite CN; reflexivity).
        assert (SZ : blen (enc_tlvs l) < 2 ^ 35).
        { unfold l. cbn [enc_tlvs]. rewrite !blen_app. pose proof (enc_tlv_len (Tlv T_Status (nni_enc ST_SUCCESS))) as L1. pose proof (enc_tlv_len (Tlv T_IssuedCertName (name_wire (c_name c)))) as L2.
          pose proof (enc_tlv_len (Tlv T_ForwardingHint (name_wire (p_fwd (cfp g))))) as L3. cbn [t_val] in *. change (blen (nni_enc ST_SUCCESS)) with 1 in L1. change (blen []) with 0. lia. }
        destruct (chal_encode_fine E r2 (c_name c) (p_fwd (cfp g)) (rnd_iv i) l (live_eiv r LV) (rnd_iv_len i) PL SZ) as (payload & r3 & EN).
        { change (rq_eiv r2) with (rq_eiv r). lia. }
        rewrite EN. reflexivity.
      + change ((RT_REVOKE =? RT_NEW) || (RT_REVOKE =? RT_RENEW)) with false. cbv iota. change (RT_REVOKE =? RT_REVOKE) with true. cbv iota.
        set (r2 := set_status ST_SUCCESS r1). set (l := [Tlv T_Status (nni_enc ST_SUCCESS)]).
        destruct (chal_encode_fine E r2 [] [] (rnd_iv i) l (live_eiv r LV) (rnd_iv_len i) eq_refl) as (payload & r3 & EN).
        { vm_compute. reflexivity. }
        { change (rq_eiv r2) with (rq_eiv r). lia. }
        rewrite EN. reflexivity.
  Qed.

  (** ** CHALLENGE *)
  Lemma pending_named : forall s id r dv, ca_at E g ops s -> pending ops s id = Some r -> named (set_div dv r).
  Proof.
    intros s id r dv A P. pose proof (pending_good E g S ops s id r A P) as (_ & _ & _ & _ & _ & NP). unfold named. cbn [set_div rq_cert]. destruct (policy_identity g _ NP) as (c & Q). rewrite Q. discriminate.
  Qed.
  (** What a CHALLENGE Interest comes to. *)
  Inductive chal_end (s : ca_state S) (i : inputs) (x : interest) : res unit -> Prop :=
  | CE_fine : chal_end s i x (Ok tt)
  | CE_id : challenge_id g (i_name x) = UB -> chal_end s i x UB
  | CE_plain : forall id r pt, names_request g id x -> pending ops s id = Some r -> signed_by E x (public_key (rq_cert r)) -> unsealed E r x pt -> pt <> [] -> parse pt = None -> chal_end s i x Exn
  | CE_select : forall id r params, names_request g id x -> pending ops s id = Some r -> signed_by E x (public_key (rq_cert r)) -> contains E r x params -> get T_SelectedChallenge params = None -> chal_end s i x Exn
  | CE_handle : forall id r params ty dv h o, names_request g id x -> pending ops s id = Some r -> signed_by E x (public_key (rq_cert r)) -> contains E r x params -> selects params ty ->
      handle_challenge E (cf_chal g) i ty params (set_div dv r) = Some h -> h_out h = o -> (forall v, o <> Ok v) ->
      chal_end s i x (match o with Ok _ => Ok tt | Exn => Exn | UB => UB | Hang => Hang end).
  Lemma chal_ends : forall s i x, ca_at E g ops s -> short_names g ops s -> addressed g VChallenge (i_name x) -> chal_end s i x (snd (on_interest E g ops s i x)).
  Proof.
    intros s i x A SN AD. rewrite (on_interest_at E g S ops _ s i x AD). cbn [handle]. unfold on_challenge.
    destruct (challenge_id g (i_name x)) as [id| | |] eqn:CI; [|constructor|apply CE_id; exact CI|unfold challenge_id in CI; destruct (nth_error _ _); [destruct (_ =? 8)|]; discriminate].
    apply (challenge_id_names g x id AD) in CI. rename CI into N. change (s_get ops (ca_store s) id) with (pending ops s id).
    destruct (pending ops s id) as [r|] eqn:P; [|constructor]. destruct (verify_interest E x (rq_cert r)) eqn:V; cbn [negb]; [|constructor].
    pose proof (proj1 (verify_interest_iff E x (rq_cert r)) V) as SB. destruct (pending_live E g S ops s id r A P) as [ID LV].
    pose proof (decode_aes_safe E (rq_key r) (params_of x) (rq_id r) (rq_div r) (rq_eiv r) (live_div r LV) (live_eiv r LV)) as [D1 D2].
    destruct (decode_aes E (rq_key r) (params_of x) (rq_id r) (rq_div r) (rq_eiv r)) as [oo dv] eqn:D. cbn [fst] in D1, D2.
    destruct oo as [[|b pt]| | |]; try contradiction; try constructor.
    assert (US : unsealed E r x (b :: pt)) by (apply unsealed_iff; eauto).
    destruct (parse (b :: pt)) as [params|] eqn:PP; [|exact (CE_plain s i x id r (b :: pt) N P SB US ltac:(discriminate) PP)].
    assert (CO : contains E r x params) by (exists (b :: pt); split; [exact US|]; split; [discriminate|exact PP]).
    destruct (get T_SelectedChallenge params) as [ct|] eqn:G; [|exact (CE_select s i x id r params N P SB CO G)].
    assert (SE : selects params (t_val ct)) by (exists ct; auto).
    destruct (handle_challenge E (cf_chal g) i (t_val ct) params (set_div dv r)) as [h|] eqn:H; [|constructor].
    assert (FAIL : forall o, h_out h = o -> (forall v, o <> Ok v) -> chal_end s i x (match o with Ok _ => Ok tt | Exn => Exn | UB => UB | Hang => Hang end)).
    { intros o HO NV. exact (CE_handle s i x id r params (t_val ct) dv h o N P SB CO SE H HO NV). }
    destruct (h_out h) as [[code info]| | |] eqn:HO; cbn [snd]; try exact (FAIL _ eq_refl ltac:(discriminate)).
    destruct (N.eqb_spec code NO_ERROR) as [NE|NE]; cbn [negb]; [|constructor].
    pose proof (after_ok s i x id r params (t_val ct) dv h A SN P H ltac:(exists info; congruence)) as AO. unfold email_effs in AO. rewrite AO. constructor.
  Qed.

  Lemma upset_throws : forall s i x id r, ca_at E g ops s -> names_request g id x -> pending ops s id = Some r -> signed_by E x (public_key (rq_cert r)) ->
    upsets E (cf_chal g) i x r -> snd (on_interest E g ops s i x) = Exn.
  Proof.
    intros s i x id r A N P SB U. destruct (pending_live E g S ops s id r A P) as [ID LV]. pose proof (names_addressed g x id N) as AD.
    assert (RAW : forall pt, unsealed E r x pt -> pt <> [] -> (parse pt = None \/ exists params, parse pt = Some params /\ get T_SelectedChallenge params = None) -> snd (on_interest E g ops s i x) = Exn).
    { intros pt US NE K. apply unsealed_iff in US as (dv & D). rewrite (on_interest_at E g S ops _ s i x AD). cbn [handle]. unfold on_challenge. rewrite (proj2 (challenge_id_names g x id AD) N).
      change (s_get ops (ca_store s) id) with (pending ops s id). rewrite P. rewrite (proj2 (verify_interest_iff E x (rq_cert r)) SB). cbn [negb]. rewrite D.
      destruct pt as [|b pt]; [contradiction|]. destruct K as [->|(params & -> & ->)]; reflexivity. }
    destruct U as [pt US NE PN|params (pt & US & NE & PP) G|params ty CO SE TH].
    - exact (RAW pt US NE (or_introl PN)).
    - exact (RAW pt US NE (or_intror (ex_intro _ params (conj PP G)))).
    - destruct (proj1 (opened_iff E x r params ty) (conj CO SE)) as (dv & OP). pose proof (chal_forward E g S ops s i x id r params ty dv A N P SB OP) as FW.
      assert (TH' : challenge_throws E (cf_chal g) i params (set_div dv r) ty) by (destruct TH; econstructor; eassumption).
      apply (handle_throws E (cf_chal g) i ty params (set_div dv r) (at_codec _ _ _ _ A) (selects_ne _ _ SE)) in TH' as (h & H & HO).
      + rewrite H, HO in FW. rewrite FW. reflexivity.
      + intros cs C. exact (pending_kept E g S ops s id r cs A P C).
      + intros cs C. exact (pending_coded E g S ops s id r cs A P C).
      + exact (pending_named s id r dv A P).
  Qed.
  Lemma chal_throws : forall s i x, ca_at E g ops s -> short_names g ops s -> addressed g VChallenge (i_name x) ->
    snd (on_interest E g ops s i x) = Exn <-> exists id r, names_request g id x /\ pending ops s id = Some r /\ signed_by E x (public_key (rq_cert r)) /\ upsets E (cf_chal g) i x r.
  Proof.
    intros s i x A SN AD. split; [|intros (id & r & N & P & SB & U); exact (upset_throws s i x id r A N P SB U)].
    intros H. pose proof (chal_ends s i x A SN AD) as CE. rewrite H in CE. clear H. remember (@Exn unit) as o eqn:O.
    destruct CE as [|Q|id r pt N P SB US NE PN|id r params N P SB CO G|id r params ty dv h o N P SB CO SE H HO NV]; try discriminate O.
    - exists id, r. repeat (split; [assumption|]). exact (up_plaintext E (cf_chal g) i x r pt US NE PN).
    - exists id, r. repeat (split; [assumption|]). exact (up_unselected E (cf_chal g) i x r params CO G).
    - exists id, r. repeat (split; [assumption|]). apply (up_challenge E (cf_chal g) i x r params ty CO SE). destruct o as [v| | |]; try discriminate O.
      assert (TH : challenge_throws E (cf_chal g) i params (set_div dv r) ty).
      { apply (handle_throws E (cf_chal g) i ty params (set_div dv r) (at_codec _ _ _ _ A) (selects_ne _ _ SE)); [| | |eauto].
        - intros cs C. exact (pending_kept E g S ops s id r cs A P C).
        - intros cs C. exact (pending_coded E g S ops s id r cs A P C).
        - exact (pending_named s id r dv A P). }
      destruct TH; econstructor; eassumption.
  Qed.
  Lemma chal_stalls : forall s i x, ca_at E g ops s -> short_names g ops s -> cc_anchors (cf_chal g) <> Hang -> addressed g VChallenge (i_name x) ->
    snd (on_interest E g ops s i x) = Hang <-> stalls E g ops s i x.
  Proof.
    intros s i x A SN AH AD. split.
    - intros H. pose proof (chal_ends s i x A SN AD) as CE. rewrite H in CE. clear H. remember (@Hang unit) as o eqn:O.
      destruct CE as [|Q|id r pt N P SB US NE PN|id r params N P SB CO G|id r params ty dv h o N P SB CO SE H HO NV]; try discriminate O. destruct o as [v| | |]; try discriminate O.
      destruct (proj1 (handle_hangs E (cf_chal g) i ty params (set_div dv r) (pending_named s id r dv A P) AH) (ex_intro _ h (conj H HO))) as (ST & TY & WD).
      exact (stall E g ops s i x id r params ty N P SB CO SE ST TY WD).
    - intros [id r params ty N P SB CO SE ST TY WD]. destruct (proj1 (opened_iff E x r params ty) (conj CO SE)) as (dv & OP). pose proof (chal_forward E g S ops s i x id r params ty dv A N P SB OP) as FW.
      destruct (proj2 (handle_hangs E (cf_chal g) i ty params (set_div dv r) (pending_named s id r dv A P) AH) (conj ST (conj TY WD))) as (h & H & HO).
      rewrite H, HO in FW. rewrite FW. reflexivity.
  Qed.
  Lemma chal_faults : forall s i x, ca_at E g ops s -> cc_anchors (cf_chal g) <> UB -> addressed g VChallenge (i_name x) ->
    snd (on_interest E g ops s i x) = UB <-> exists ty c rest, i_name x = p_prefix (cfp g) ++ [gc (bs "CA"); gc (bs "CHALLENGE"); Tlv ty c] ++ rest /\ length c <> 8%nat.
  Proof.
    intros s i x A AN AD. pose proof AD as [rest Q]. cbn [verb_comps app] in Q. destruct rest as [|[ty c] rest].
    - split; [|intros (ty & c & r & Q' & _); exfalso; rewrite Q in Q'; apply app_inv_head in Q'; discriminate]. intros H. exfalso. refine (challenge_safe E g S ops s i x A AD AN _ H).
      intros ty c r Q'. exfalso. rewrite Q in Q'. apply app_inv_head in Q'. discriminate.
    - assert (UN : forall ty' c' r', i_name x = p_prefix (cfp g) ++ [gc (bs "CA"); gc (bs "CHALLENGE"); Tlv ty' c'] ++ r' -> c' = c).
      { intros ty' c' r' Q'. rewrite Q in Q'. apply app_inv_head in Q'. cbn [app] in Q'. congruence. }
      split.
      + intros H. exists ty, c, rest. split; [exact Q|]. intros L. refine (challenge_safe E g S ops s i x A AD AN _ H). intros ty' c' r' Q'. rewrite (UN _ _ _ Q'). exact L.
      + intros (ty' & c' & r' & Q' & L). rewrite (UN _ _ _ Q') in L. rewrite (on_interest_at E g S ops _ s i x AD). cbn [handle]. unfold on_challenge.
        assert (CI : challenge_id g (i_name x) = UB).
        { unfold challenge_id. rewrite Q. rewrite nth_error_app2 by lia. replace (length (p_prefix (cfp g)) + 2 - length (p_prefix (cfp g)))%nat with 2%nat by lia. cbn [nth_error t_val].
          destruct (N.eqb_spec (blen c) 8) as [B|B]; [|reflexivity]. exfalso. apply L. unfold blen in B. lia. }
        rewrite CI. reflexivity.
  Qed.

  (** ** The other handlers *)
  Lemma new_ends : forall add_ok idkey i rt x, rt = RT_NEW \/ rt = RT_REVOKE -> snd (on_new E g add_ok idkey i rt x) <> UB /\ snd (on_new E g add_ok idkey i rt x) <> Hang.
  Proof.
    intros add_ok idkey i rt x RT. destruct (on_new E g add_ok idkey i rt x) as [es o] eqn:H. cbn [snd].
    destruct (on_new_cases E g add_ok idkey i rt x es o RT H) as [(peer & c & _ & _ & -> & _)|[(code & info & -> & _)|(-> & _)]]; split; discriminate.
  Qed.
  Lemma new_throws_iff : forall add_ok idkey i rt x, rt = RT_NEW \/ rt = RT_REVOKE -> suffix_limit_sane g ->
    snd (on_new E g add_ok idkey i rt x) = Exn <-> new_upsets E g i rt idkey x.
  Proof.
    intros add_ok idkey i rt x RT SANE. unfold on_new, cert_is_valid. destruct (c_validity (cf_cert g)) as [[nb na]|] eqn:CV; [|split; [intros _; apply nu_ca; exact CV|reflexivity]].
    assert (INV : new_upsets E g i rt idkey x -> exists peer c, usable E g i rt x peer c /\
      ((rt = RT_NEW /\ c_validity c = None) \/ (cert_policy E g rt (in_t2 i) x c /\ ~ key_derivable E i (id_for E idkey (c_name c)) peer))).
    { intros [Q|peer c US R V|peer c US CP K]; [congruence|exists peer, c; auto|exists peer, c; auto]. }
    assert (NO : forall code info, (forall peer c, ~ usable E g i rt x peer c) -> snd (put_error E g x code info) = Exn <-> new_upsets E g i rt idkey x).
    { intros code info NU. split; [discriminate|]. intros H. exfalso. destruct (INV H) as (peer & c & US & _). exact (NU peer c US). }
    assert (W : within (in_t1 i) (c_validity (cf_cert g)) <-> (nb <=? in_t1 i)%Z && (in_t1 i <=? na)%Z = true).
    { rewrite CV. rewrite andb_true_iff, !Z.leb_le. split; [intros (a & b & Q & L); injection Q as <- <-; exact L|intros L; exists nb, na; auto]. }
    destruct ((nb <=? in_t1 i)%Z && (in_t1 i <=? na)%Z); [|apply NO; intros peer c (Q & _); apply W in Q; discriminate].
    destruct (req_decode_total E rt (params_of x)) as [NU NH].
    assert (CD : forall peer c, carries E rt x peer c <-> req_decode E rt (params_of x) = Ok (peer, c)) by (intros; apply carries_decode; exact RT).
    destruct (req_decode E rt (params_of x)) as [[peer c]| | |] eqn:D; try contradiction.
    2:{ apply NO. intros peer c (_ & Q & _). apply CD in Q. discriminate. }
    assert (UN : forall p' c', usable E g i rt x p' c' -> p' = peer /\ c' = c) by (intros p' c' (_ & Q & _); apply CD in Q; injection Q as <- <-; auto).
    destruct peer as [|p0 pr] eqn:PQ; [apply NO; intros p' c' US; destruct (UN _ _ US) as [-> ->]; destruct US as (_ & _ & Q & _); contradiction|]. rewrite <- PQ in *.
    unfold derive_secret. destruct (o_ecdh E (in_sk i) peer) as [rc secret] eqn:EC.
    destruct (Z.eqb_spec rc 0) as [RC|RC].
    { apply NO. intros p' c' US. destruct (UN _ _ US) as [-> ->]. destruct US as (_ & _ & _ & Q & _). rewrite EC in Q. contradiction. }
    destruct (name_allowed g (c_name c)) eqn:NA; cbn [negb].
    2:{ apply NO. intros p' c' US. destruct (UN _ _ US) as [-> ->]. destruct US as (_ & _ & _ & _ & Q). rewrite (policy_name_allowed g _ SANE Q) in NA. discriminate. }
    assert (US : usable E g i rt x peer c).
    { split; [apply W; reflexivity|]. split; [apply CD; reflexivity|]. split; [subst; discriminate|]. split; [rewrite EC; exact RC|apply name_allowed_policy; exact NA]. }
    clear NO. set (id := request_id_of E idkey (c_name c)).
    assert (NO : forall code info, ~ (rt = RT_NEW /\ c_validity c = None) -> ~ cert_policy E g rt (in_t2 i) x c -> snd (put_error E g x code info) = Exn <-> new_upsets E g i rt idkey x).
    { intros code info N1 N2. split; [discriminate|]. intros H. exfalso. destruct (INV H) as (p' & c' & U & K). destruct (UN _ _ U) as [-> ->]. destruct K as [K|[K _]]; contradiction. }
    assert (KEY : cert_policy E g rt (in_t2 i) x c ->
      snd (match hkdf E secret (rnd_salt i) id with
        | Exn => ([], Exn) | UB => ([], UB) | Hang => ([], Hang)
        | Ok key => let r := new_request g id rt c key in
            if negb (add_ok r) then put_error E g x INVALID_PARAMETER (bs "Duplicate Request ID: The same request has been seen before.")
            else ([EAdd r; EPut (reply_data E g (i_name x) (reply_encode (o_ecdh_pub E (in_sk i)) (rnd_salt i) id (p_challenges (cfp g)))); ECallback r], Ok tt) end) = Exn <-> new_upsets E g i rt idkey x).
    { intros CP. assert (NV : ~ (rt = RT_NEW /\ c_validity c = None)).
      { intros [R V]. destruct CP as [(_ & (a & b & Q & _) & _)|[Q _]]; [congruence|rewrite R in Q; discriminate]. }
      unfold hkdf. destruct (o_hkdf E secret (rnd_salt i) id) as [hrc key] eqn:HK.
      assert (KD : key_derivable E i (id_for E idkey (c_name c)) peer <-> hrc <> 0%Z).
      { unfold key_derivable. change (id_for E idkey (c_name c)) with id. rewrite EC. cbn [snd]. rewrite HK. reflexivity. }
      destruct (Z.eqb_spec hrc 0) as [HR|HR].
      - split; [intros _|reflexivity]. apply (nu_hkdf E g i rt idkey x peer c US CP). rewrite KD. auto.
      - cbv zeta. split; [destruct (negb (add_ok _)); discriminate|]. intros H. exfalso. destruct (INV H) as (p' & c' & U & K). destruct (UN _ _ U) as [-> ->]. destruct K as [K|[_ K]]; [contradiction|]. apply K, KD. exact HR. }
    unfold type_checks. destruct (N.eqb_spec rt RT_NEW) as [R1|R1].
    - destruct (c_validity c) as [[cnb cna]|] eqn:V; cbn [of_opt bind fst snd]; [|split; [intros _; exact (nu_period E g i rt idkey x peer c US R1 V)|reflexivity]].
      assert (NV : ~ (rt = RT_NEW /\ Some (cnb, cna) = None)) by (intros [_ Q]; discriminate).
      assert (CPI : cert_policy E g rt (in_t2 i) x c <-> period_allowed g (in_t2 i) cnb cna = true /\ verify_cert E c c = true /\ verify_interest E x c = true).
      { rewrite period_allowed_iff, verify_interest_iff. unfold cert_policy. rewrite V. rewrite R1. split.
        - intros [(_ & (a & b & Q & PP) & C1 & C2)|[Q _]]; [|discriminate]. injection Q as <- <-. auto.
        - intros (PP & C1 & C2). left. split; [reflexivity|]. split; [exists cnb, cna; auto|]. auto. }
      destruct (period_allowed g (in_t2 i) cnb cna); cbn [negb]; [|apply NO; [exact NV|intros Q; apply CPI in Q as [Q _]; discriminate]].
      destruct (verify_cert E c c); cbn [negb]; [|apply NO; [exact NV|intros Q; apply CPI in Q as (_ & Q & _); discriminate]].
      destruct (verify_interest E x c); cbn [negb]; [|apply NO; [exact NV|intros Q; apply CPI in Q as (_ & _ & Q); discriminate]].
      apply KEY. apply CPI. auto.
    - destruct RT as [RT|RT]; [contradiction|]. assert (RB : (rt =? RT_REVOKE) = true) by (rewrite RT; apply N.eqb_refl). rewrite RB.
      assert (NV : ~ (rt = RT_NEW /\ c_validity c = None)) by (intros [Q _]; contradiction).
      destruct (verify_cert E c (cf_cert g)) eqn:VC; cbn [negb].
      + apply KEY. right. auto.
      + apply NO; [exact NV|]. intros [[Q _]|[_ Q]]; [contradiction|]. unfold cert_signed_by in Q. unfold verify_cert in VC. congruence.
  Qed.
  Lemma discovery_throws : forall prof i x, snd (on_discovery E g prof i x) = Exn <-> prof = None /\ p_info (cfp g) = [] /\ c_keyloc (cf_cert g) = None.
  Proof.
    intros prof i x. unfold on_discovery, on_get_profile, profile_data. destruct prof as [d|]; [split; [discriminate|intros (Q & _); discriminate]|].
    unfold info_encode. destruct (p_info (cfp g)); [|split; [discriminate|intros (_ & Q & _); discriminate]].
    destruct (c_keyloc (cf_cert g)); cbn [of_opt bind]; (split; [try discriminate; auto|]); [intros (_ & _ & Q); discriminate|reflexivity].
  Qed.
  Lemma discovery_ends : forall prof i x, snd (on_discovery E g prof i x) <> UB /\ snd (on_discovery E g prof i x) <> Hang.
  Proof.
    intros prof i x. unfold on_discovery, on_get_profile, profile_data. destruct prof as [d|]; [split; discriminate|].
    unfold info_encode. destruct (p_info (cfp g)); [|split; discriminate]. destruct (c_keyloc (cf_cert g)); cbn [of_opt bind]; split; discriminate.
  Qed.

  (** ** All handlers *)
  Lemma throws_iff : forall s i x, ca_at E g ops s -> short_names g ops s -> suffix_limit_sane g -> snd (on_interest E g ops s i x) = Exn <-> throws E g ops s i x.
  Proof.
    intros s i x A SN SANE. destruct (on_interest_cases E g S ops s i x) as [[N Q]|(v & AD & Q)].
    { rewrite Q. split; [discriminate|]. intros [V|V|V|id r V]; [| | |apply names_addressed in V]; destruct (N _ V). }
    assert (ONLY : forall w, addressed g w (i_name x) -> w = v) by (intros w W; exact (addressed_unique g (i_name x) w v W AD)).
    destruct v.
    - rewrite Q. cbn [handle]. rewrite discovery_throws. split; [intros (Q1 & Q2 & Q3); exact (thr_info E g ops s i x AD Q1 Q2 Q3)|].
      intros [V|V|V|id r V]; [auto| | |apply names_addressed in V]; discriminate (ONLY _ V).
    - rewrite Q. cbn [handle]. destruct (probe_ends E g i x) as [[O|O] _]; rewrite O; (split; [discriminate|]); intros [V|V|V|id r V]; try (discriminate (ONLY _ V)); apply names_addressed in V; discriminate (ONLY _ V).
    - rewrite Q. cbn [handle]. rewrite new_throws_iff by auto. split; [intros U; exact (thr_new E g ops s i x AD U)|].
      intros [V|V U|V|id r V]; [|exact U| |apply names_addressed in V]; discriminate (ONLY _ V).
    - rewrite (chal_throws s i x A SN AD). split; [intros (id & r & N & P & SB & U); exact (thr_challenge E g ops s i x id r N P SB U)|].
      intros [V|V|V|id r N P SB U]; try discriminate (ONLY _ V). exists id, r. auto.
    - rewrite Q. cbn [handle]. rewrite new_throws_iff by auto. split; [intros U; exact (thr_revoke E g ops s i x AD U)|].
      intros [V|V|V U|id r V]; [| |exact U|apply names_addressed in V]; discriminate (ONLY _ V).
  Qed.
  Lemma faults_iff : forall s i x, ca_at E g ops s -> cc_anchors (cf_chal g) <> UB -> snd (on_interest E g ops s i x) = UB <-> corrupts g x.
  Proof.
    intros s i x A AN.
    assert (CH : forall ty c rest, i_name x = p_prefix (cfp g) ++ [gc (bs "CA"); gc (bs "CHALLENGE"); Tlv ty c] ++ rest -> addressed g VChallenge (i_name x)).
    { intros ty c rest Q. exists (Tlv ty c :: rest). exact Q. }
    destruct (on_interest_cases E g S ops s i x) as [[N Q]|(v & AD & Q)].
    { rewrite Q. split; [discriminate|]. intros [ty c rest V _|params p V]; [destruct (N _ (CH _ _ _ V))|destruct (N _ V)]. }
    assert (ONLY : forall w, addressed g w (i_name x) -> w = v) by (intros w W; exact (addressed_unique g (i_name x) w v W AD)).
    assert (NO : v <> VChallenge -> v <> VProbe -> ~ corrupts g x).
    { intros N1 N2 [ty c rest V _|params p V]; [apply N1; symmetry; exact (ONLY _ (CH _ _ _ V))|apply N2; symmetry; exact (ONLY _ V)]. }
    destruct v.
    - rewrite Q. cbn [handle]. split; [intros H; destruct (proj1 (discovery_ends (ca_prof s) i x) H)|intros H; destruct (NO ltac:(discriminate) ltac:(discriminate) H)].
    - rewrite Q. cbn [handle]. rewrite (proj2 (probe_ends E g i x)). split; [intros (params & p & R & I & T); exact (cor_redirect g x params p AD R I T)|].
      intros [ty c rest V _|params p V R I T]; [discriminate (ONLY _ (CH _ _ _ V))|exists params, p; auto].
    - rewrite Q. cbn [handle]. split; [|intros H; destruct (NO ltac:(discriminate) ltac:(discriminate) H)]. intros H. refine (False_ind _ (proj1 (new_ends _ _ i RT_NEW x _) H)). auto.
    - rewrite (chal_faults s i x A AN AD). split; [intros (ty & c & rest & V & L); exact (cor_id g x ty c rest V L)|].
      intros [ty c rest V L|params p V]; [exists ty, c, rest; auto|discriminate (ONLY _ V)].
    - rewrite Q. cbn [handle]. split; [|intros H; destruct (NO ltac:(discriminate) ltac:(discriminate) H)]. intros H. refine (False_ind _ (proj1 (new_ends _ _ i RT_REVOKE x _) H)). auto.
  Qed.
  Lemma hangs_iff : forall s i x, ca_at E g ops s -> short_names g ops s -> cc_anchors (cf_chal g) <> Hang -> snd (on_interest E g ops s i x) = Hang <-> stalls E g ops s i x.
  Proof.
    intros s i x A SN AH. destruct (on_interest_cases E g S ops s i x) as [[N Q]|(v & AD & Q)].
    { rewrite Q. split; [discriminate|]. intros [id r params ty V]. apply names_addressed in V. destruct (N _ V). }
    assert (NO : v <> VChallenge -> ~ stalls E g ops s i x).
    { intros N1 [id r params ty V]. apply names_addressed in V. apply N1. exact (addressed_unique g (i_name x) _ _ AD V). }
    destruct v.
    - rewrite Q. cbn [handle]. split; [intros H; destruct (proj2 (discovery_ends (ca_prof s) i x) H)|intros H; destruct (NO ltac:(discriminate) H)].
    - rewrite Q. cbn [handle]. split; [|intros H; destruct (NO ltac:(discriminate) H)]. destruct (probe_ends E g i x) as [[O|O] _]; rewrite O; discriminate.
    - rewrite Q. cbn [handle]. split; [|intros H; destruct (NO ltac:(discriminate) H)]. intros H. refine (False_ind _ (proj2 (new_ends _ _ i RT_NEW x _) H)). auto.
    - exact (chal_stalls s i x A SN AH AD).
    - rewrite Q. cbn [handle]. split; [|intros H; destruct (NO ltac:(discriminate) H)]. intros H. refine (False_ind _ (proj2 (new_ends _ _ i RT_REVOKE x _) H)). auto.
  Qed.
End Crash.
