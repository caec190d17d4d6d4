(** Single-Interest properties of the CHALLENGE handler and of the profile. *)
From Verif Require Export CaProps.
Local Open Scope N_scope.

(** ** Undefined behaviour *)
Lemma decode_aes_safe : forall E key block ad dv ev, (dv = [] \/ iv12 dv) -> (ev = [] \/ iv12 ev) ->
  fst (decode_aes E key block ad dv ev) <> UB /\ fst (decode_aes E key block ad dv ev) <> Hang.
Proof.
  intros E key block ad dv ev D V. rewrite decode_aes_eq. destruct (dec_view block) as [[[iv tag] ct]|] eqn:DV; [|split; discriminate].
  assert (match ev with [] => false | _ :: _ => blen ev <? 8 end = false) as ->.
  { destruct V as [->|V]; [reflexivity|]. destruct ev; [reflexivity|]. unfold blen. rewrite V. reflexivity. }
  destruct (match ev with [] => false | _ :: _ => bytes_eqb (iv_prefix iv) (iv_prefix ev) end); [split; discriminate|].
  assert (match dv with [] => false | _ :: _ => blen dv <? 12 end = false) as ->.
  { destruct D as [->|D]; [reflexivity|]. destruct dv; [reflexivity|]. apply blen12, D. }
  destruct (match dv with [] => false | _ :: _ => _ end); [split; discriminate|].
  destruct (o_aes_dec E key iv ad ct tag) as [pt|]; [|split; discriminate].
  destruct (negb (blen pt =? blen ct)); [split; discriminate|]. apply dec_view_iv in DV as (I & _).
  destruct (update_iv_not_ub iv (blen pt) I) as [A B]. destruct (update_iv iv (blen pt)); cbn [fst]; split; try discriminate; contradiction.
Qed.

Lemma chal_plain_safe : forall r issued fwd, chal_plain r issued fwd <> UB /\ chal_plain r issued fwd <> Hang.
Proof.
  intros r issued fwd. unfold chal_plain. destruct (rq_cs r) as [cs|]; cbn [bind]; [|split; discriminate].
  destruct (bytes_eqb (cs_status cs) (bs "need-proof")); cbn [bind]; [|split; discriminate].
  destruct (from_hex _); cbn [of_opt bind]; split; discriminate.
Qed.
Lemma chal_encode_safe : forall E r issued fwd rnd, (rq_eiv r = [] \/ iv12 (rq_eiv r)) -> length rnd = 8%nat ->
  fst (chal_encode E r issued fwd rnd) <> UB /\ fst (chal_encode E r issued fwd rnd) <> Hang.
Proof.
  intros E r issued fwd rnd V L. unfold chal_encode. destruct (chal_plain_safe r issued fwd) as [A B].
  destruct (chal_plain r issued fwd) as [l| | |]; try contradiction; [|split; discriminate].
  destruct (encode_aes_spec E (rq_key r) (enc_tlvs l) (rq_id r) (rq_eiv r) rnd V L) as [(iv2 & _ & ->)|[_ ->]]; split; discriminate.
Qed.

(** The challenge modules. *)
Lemma check_code_safe : forall ty life msg now t2 params r, h_out (check_code ty life msg now t2 params r) <> UB.
Proof.
  intros. unfold check_code. destruct (rq_cs r) as [cs|]; [|discriminate]. destruct (_ || _); [|discriminate].
  destruct (get T_ParameterValue params); [|discriminate]. destruct (_ <=? _)%Z; [discriminate|].
  destruct (sec_get K_CODE (cs_secrets cs)); [|discriminate]. destruct (bytes_eqb _ _); [discriminate|]. destruct (1 <? cs_tries cs); discriminate.
Qed.
Lemma gen_code_safe : forall ws, gen_code ws <> UB.
Proof. intros ws. unfold gen_code. destruct (find accepted_word ws); discriminate. Qed.
Lemma policy_identity : forall g n, name_policy g n -> exists c, get_neg 1 (identity_of n) = Some c.
Proof.
  intros g n (suffix & kid & iss & ver & -> & NE & _). rewrite app_assoc. rewrite identity_of_shape.
  destruct (exists_last NE) as (s' & c & ->). exists c. rewrite app_assoc. exact (get_neg_app (p_prefix (cfp g) ++ s') [c] (Nat.lt_0_succ 0)).
Qed.
Lemma handle_challenge_safe : forall E cfg i ty params r h, handle_challenge E cfg i ty params r = Some h ->
  cc_anchors cfg <> UB -> params <> [] -> (exists c, get_neg 1 (identity_of (c_name (rq_cert r))) = Some c) -> h_out h <> UB.
Proof.
  intros E cfg i ty params r h H A P (c & I). unfold handle_challenge in H.
  pose proof (gen_code_safe (in_words i)) as G.
  destruct (bytes_eqb ty CH_PIN); [|destruct (bytes_eqb ty CH_EMAIL); [|destruct (bytes_eqb ty CH_POSSESSION); [|discriminate]]]; injection H as <-.
  - unfold handle_pin. destruct (rq_status r =? ST_BEFORE); [|apply check_code_safe]. destruct (gen_code (in_words i)); try discriminate. contradiction.
  - unfold handle_email. destruct (rq_status r =? ST_BEFORE); [|apply check_code_safe].
    destruct (get T_ParameterValue params); [|discriminate]. rewrite I. destruct (gen_code (in_words i)); try discriminate; [|contradiction].
    destruct (in_script_ok i); discriminate.
  - unfold handle_possession. destruct (cc_anchors cfg) as [anchors| | |]; try discriminate; [|contradiction].
    destruct params as [|p0 ps]; [contradiction|]. destruct (poss_loop E (p0 :: ps) None []) as [[cred proof]|]; [|discriminate].
    destruct (rq_status r =? ST_BEFORE).
    + destruct cred as [cc|]; [|destruct (has_content None), proof; discriminate]. destruct (has_content (Some cc)), proof; try discriminate.
      destruct (c_keyloc cc) as [loc|]; [|discriminate]. destruct (negb (o_pubkey_ok E (public_key cc))); [discriminate|].
      destruct (existsb (anchor_ok E cc loc) anchors); discriminate.
    + destruct (rq_cs r) as [cs|]; [|discriminate]. destruct (bytes_eqb (cs_status cs) NEED_PROOF); [|discriminate].
      destruct (has_content cred), proof; try discriminate.
      destruct (from_hex (match sec_get K_CRED (cs_secrets cs) with Some h => h | None => [] end)) as [w|]; [|discriminate].
      destruct (block_from_value w) as [b'|]; [|discriminate]. destruct (cert_decode E b') as [cc|]; [|discriminate].
      destruct (from_hex (match sec_get K_NONCE (cs_secrets cs) with Some h => h | None => [] end)) as [nn|]; [|discriminate].
      destruct (negb (o_pubkey_ok E (public_key cc))); [discriminate|]. destruct (o_verify E (public_key cc) (MRaw nn) _); discriminate.
Qed.

(** The request a challenge module leaves has the encryption IV it had. *)
Lemma hc_eiv : forall E cfg i ty params r h, hc_result E cfg i ty params r h -> rq_eiv (h_req h) = rq_eiv r.
Proof. intros E cfg i ty params r h H. destruct H; reflexivity. Qed.

Lemma after_challenge_safe : forall E g i x es r, (rq_eiv r = [] \/ iv12 (rq_eiv r)) -> snd (after_challenge E g i x es r) <> UB.
Proof.
  intros E g i x es r V. unfold after_challenge.
  assert (Q : forall r' n1 n2, rq_eiv r' = rq_eiv r -> fst (chal_encode E r' n1 n2 (rnd_iv i)) <> UB).
  { intros r' n1 n2 EV. apply chal_encode_safe; [rewrite EV; exact V|apply rnd_iv_len]. }
  destruct (rq_status r =? ST_PENDING).
  - destruct (_ || _).
    + unfold issue_certificate. destruct (c_validity (rq_cert r)) as [v|]; cbn [of_opt bind]; [|discriminate].
      match goal with |- context [chal_encode E ?r' ?a ?b ?c] => specialize (Q r' a b eq_refl); destruct (chal_encode E r' a b c) as [[pl| | |] r3]; cbn in *; try discriminate; contradiction end.
    + destruct (rq_type r =? RT_REVOKE); [|discriminate].
      match goal with |- context [chal_encode E ?r' ?a ?b ?c] => specialize (Q r' a b eq_refl); destruct (chal_encode E r' a b c) as [[pl| | |] r3]; cbn in *; try discriminate; contradiction end.
  - specialize (Q r [] [] eq_refl). destruct (chal_encode E r [] [] (rnd_iv i)) as [[pl| | |] r3]; cbn in *; try discriminate; contradiction.
Qed.

Lemma on_challenge_safe : forall E g get_req i x,
  (forall id r, get_req id = Some r -> live r /\ name_policy g (c_name (rq_cert r))) -> cc_anchors (cf_chal g) <> UB ->
  challenge_id g (i_name x) <> UB -> snd (on_challenge E g get_req i x) <> UB.
Proof.
  intros E g get_req i x G A C. unfold on_challenge. destruct (challenge_id g (i_name x)) as [id| | |] eqn:CI; try discriminate; [|contradiction].
  destruct (get_req id) as [r|] eqn:GR; [|discriminate]. destruct (G id r GR) as [L NP].
  destruct (negb (verify_interest E x (rq_cert r))); [discriminate|].
  destruct (decode_aes_safe E (rq_key r) (params_of x) (rq_id r) (rq_div r) (rq_eiv r) (live_div r L) (live_eiv r L)) as [D1 D2].
  destruct (decode_aes E (rq_key r) (params_of x) (rq_id r) (rq_div r) (rq_eiv r)) as [o dv]. cbn [fst] in D1, D2.
  destruct o as [pt| | |]; try discriminate; try contradiction.
  destruct pt as [|p0 pt0] eqn:PQ; [discriminate|]. rewrite <- PQ. destruct (parse pt) as [params|]; [|discriminate].
  destruct (get T_SelectedChallenge params) as [ct|] eqn:SC; [|discriminate].
  destruct (handle_challenge E (cf_chal g) i (t_val ct) params (set_div dv r)) as [h|] eqn:H; [|discriminate].
  assert (U : h_out h <> UB).
  { apply (handle_challenge_safe E _ i _ params _ h H A); [intros ->; discriminate|]. exact (policy_identity g _ NP). }
  apply hc_cases in H as [H _]. apply hc_eiv in H. cbn [rq_eiv set_div] in H.
  destruct (h_out h) as [[code info]| | |]; try discriminate; [|contradiction].
  destruct (negb (code =? NO_ERROR)); [discriminate|]. apply after_challenge_safe. rewrite H. exact (live_eiv r L).
Qed.

Lemma challenge_safe : forall E g S (ops : store_ops S) s i x, ca_at E g ops s -> addressed g VChallenge (i_name x) ->
  cc_anchors (cf_chal g) <> UB ->
  (forall ty c rest, i_name x = p_prefix (cfp g) ++ [gc (bs "CA"); gc (bs "CHALLENGE"); Tlv ty c] ++ rest -> length c = 8%nat) ->
  snd (on_interest E g ops s i x) <> UB.
Proof.
  intros E g S ops s i x A AD AN L. rewrite (on_interest_at E g S ops _ s i x AD). cbn [handle]. apply on_challenge_safe; [|exact AN|].
  - intros id r P. destruct (pending_good E g S ops s id r A P) as (_ & _ & G1 & _ & _ & G2). auto.
  - destruct AD as [rest AD]. unfold challenge_id. rewrite AD. cbn [verb_comps app].
    rewrite nth_error_app2 by lia. replace (length (p_prefix (cfp g)) + 2 - length (p_prefix (cfp g)))%nat with 2%nat by lia. cbn [nth_error].
    destruct rest as [|c rest]; [discriminate|]. rewrite AD in L. destruct c as [ty v]. specialize (L ty v rest eq_refl). cbn [t_val]. unfold blen. rewrite L. discriminate.
Qed.
Lemma challenge_overrun : forall E g S (ops : store_ops S) s i x ty c rest,
  i_name x = p_prefix (cfp g) ++ [gc (bs "CA"); gc (bs "CHALLENGE"); Tlv ty c] ++ rest -> length c <> 8%nat ->
  on_interest E g ops s i x = ([], UB).
Proof.
  intros E g S ops s i x ty c rest N L.
  assert (AD : addressed g VChallenge (i_name x)) by (exists (Tlv ty c :: rest); rewrite N; reflexivity).
  rewrite (on_interest_at E g S ops _ s i x AD). cbn [handle]. unfold on_challenge, challenge_id. rewrite N. cbn [app].
  rewrite nth_error_app2 by lia. replace (length (p_prefix (cfp g)) + 2 - length (p_prefix (cfp g)))%nat with 2%nat by lia. cbn [nth_error t_val].
  destruct (N.eqb_spec (blen c) 8) as [Q|Q]; [unfold blen in Q; lia|]. reflexivity.
Qed.

(** ** Exceptions *)
Lemma throws_only : forall E g S (ops : store_ops S) s i x es, on_interest E g ops s i x = (es, Exn) ->
  (exists rt, (rt = RT_NEW \/ rt = RT_REVOKE) /\ addressed g (verb_of rt) (i_name x) /\ es = [] /\ new_throws E g i rt (ca_idkey s) x) \/
  (exists id r, names_request g id x /\ pending ops s id = Some r /\ signed_by E x (public_key (rq_cert r))) \/
  addressed g VInfo (i_name x).
Proof.
  intros E g S ops s i x es H. destruct (on_interest_cases E g S ops s i x) as [[_ O]|(v & AD & O)]; rewrite O in H; [discriminate|].
  assert (NEWC : forall rt, rt = RT_NEW \/ rt = RT_REVOKE -> addressed g (verb_of rt) (i_name x) ->
    on_new E g (fun r => match s_add ops (ca_store s) r with Some _ => true | None => false end) (ca_idkey s) i rt x = (es, Exn) ->
    exists rt, (rt = RT_NEW \/ rt = RT_REVOKE) /\ addressed g (verb_of rt) (i_name x) /\ es = [] /\ new_throws E g i rt (ca_idkey s) x).
  { intros rt RT AD' H'. apply on_new_cases in H' as [(peer & c & _ & _ & Q & _)|[(code & info & Q & _)|(_ & -> & T)]]; [discriminate..| |exact RT].
    exists rt. auto. }
  destruct v; cbn [handle] in H.
  - right. right. exact AD.
  - unfold on_probe in H. destruct (do params <- _; _) as [[[|? ?] [|? ?]]| | |]; discriminate.
  - left. apply (NEWC RT_NEW); auto.
  - right. left. destruct (on_challenge_cases E g (s_get ops (ca_store s)) i x) as [(r & (id & CI & G) & CO)|[(_ & _ & info & _ & Q)|(_ & Q)]];
      [|rewrite Q in H; discriminate..].
    exists id, r. split; [apply (challenge_id_names g x id AD), CI|]. split; [exact G|]. rewrite H in CO. inversion CO; assumption.
  - left. apply (NEWC RT_REVOKE); auto.
Qed.
Lemma probe_throws_never : forall E g S (ops : store_ops S) s i x, addressed g VProbe (i_name x) -> snd (on_interest E g ops s i x) <> Exn.
Proof.
  intros E g S ops s i x AD. rewrite (on_interest_at E g S ops _ s i x AD). cbn [handle]. unfold on_probe.
  destruct (do params <- _; _) as [[[|? ?] [|? ?]]| | |]; discriminate.
Qed.

(** ** The list of challenges *)
Lemma new_reply_lists : forall E g i x id salt0 id0, fits (o_ecdh_pub E (in_sk i)) -> Forall fits (p_challenges (cfp g)) ->
  length id = 8%nat -> length salt0 = 32%nat -> length id0 = 8%nat ->
  reply_decode salt0 id0 (d_content (new_reply E g i x id)) =
  (Ok tt, Reply (o_ecdh_pub E (in_sk i)) (rnd_salt i) id (p_challenges (cfp g))).
Proof.
  intros E g i x id salt0 id0 F1 F2 L1 L2 L3. apply reply_roundtrip; try assumption. unfold rnd_salt. apply be_enc_length.
Qed.

(** ** Email *)
Lemma emails_sent : forall E g S (ops : store_ops S) s i x es o cmd, ca_at E g ops s -> on_interest E g ops s i x = (es, o) -> In (EEmail cmd) es ->
  exists id r params t code, names_request g id x /\ pending ops s id = Some r /\ rq_status r = ST_BEFORE /\
    signed_by E x (public_key (rq_cert r)) /\ opens E (rq_key r) id x params /\ selects params (bs "email") /\
    get T_ParameterValue params = Some t /\ gen_code (in_words i) = Ok code /\ cmd = email_command E (cc_script (cf_chal g)) (t_val t) code r.
Proof.
  intros E g S ops s i x es o cmd A H IN. destruct (on_interest_cases E g S ops s i x) as [[_ O]|(v & AD & O)]; rewrite O in H.
  { injection H as <- <-. destruct IN. }
  assert (NEWC : forall rt, rt = RT_NEW \/ rt = RT_REVOKE -> 
    on_new E g (fun r => match s_add ops (ca_store s) r with Some _ => true | None => false end) (ca_idkey s) i rt x = (es, o) -> False).
  { intros rt RT H'. apply on_new_cases in H' as [(peer & c & _ & _ & _ & ->)|[(code & info & _ & -> & _)|(_ & -> & T)]]; [..|exact RT];
      cbn [In] in IN; repeat (destruct IN as [IN|IN]; [discriminate|]); destruct IN. }
  destruct v; cbn [handle] in H.
  - unfold on_discovery, on_get_profile in H. destruct (profile_data E g (ca_prof s) (in_version i)); injection H as <- <-; try (destruct IN; fail).
    destruct (ca_prof s); cbn [app In] in IN; repeat (destruct IN as [IN|IN]; [discriminate|]); destruct IN.
  - unfold on_probe in H. destruct (do params <- _; _) as [[[|? ?] [|? ?]]| | |]; injection H as <- <-; cbn [In] in IN; repeat (destruct IN as [IN|IN]; [discriminate|]); destruct IN.
  - destruct (NEWC RT_NEW (or_introl eq_refl) H).
  - destruct (on_challenge_cases E g (s_get ops (ca_store s)) i x) as [(r & (id & CI & G) & CO)|[(_ & _ & info & _ & Q)|(_ & Q)]];
      [|rewrite Q in H; injection H as <- <-; cbn [In] in IN; repeat (destruct IN as [IN|IN]; [discriminate|]); destruct IN..].
    pose proof (proj1 (challenge_id_names g x id AD) CI) as N. destruct (pending_good E g S ops s id r A G) as (IDR & _).
    rewrite H in CO.
    assert (MV : forall params ty dv cs em, opened E x r params ty dv -> moves E (cf_chal g) i params (set_div dv r) ty cs em ->
       signed_by E x (public_key (rq_cert r)) -> In (EEmail cmd) (email_effs em) ->
       exists id r params t code, names_request g id x /\ pending ops s id = Some r /\ rq_status r = ST_BEFORE /\
        signed_by E x (public_key (rq_cert r)) /\ opens E (rq_key r) id x params /\ selects params (bs "email") /\
        get T_ParameterValue params = Some t /\ gen_code (in_words i) = Ok code /\ cmd = email_command E (cc_script (cf_chal g)) (t_val t) code r).
    { intros params ty dv cs em (pt & D & PN & PP & SE) M SB IE. destruct M as [[SB' ST]|(_ & -> & _)]; [|destruct IE].
      inversion ST as [|code addr GC GA T1 T2 T3|]; subst em; try (destruct IE; fail). subst ty.
      cbn [email_effs In] in IE. destruct IE as [IE|[]]. injection IE as <-.
      exists id, r, params, addr, code. split; [exact N|]. split; [exact G|]. split; [exact SB'|]. split; [exact SB|]. split.
      - apply decode_ok_inv in D as (iv & tag & ct & V & _ & DE & _ & _). unfold dec_view in V. destruct (parse (params_of x)) as [els|] eqn:P; [|discriminate].
        destruct (get T_EncryptedPayload els) as [p|] eqn:G1; [|discriminate]. destruct (get T_InitializationVector els) as [v|] eqn:G2; [|discriminate].
        destruct (get T_AuthenticationTag els) as [t|] eqn:G3; [|discriminate]. destruct (_ && _); [|discriminate]. injection V as <- <- <-.
        exists els, v, t, p, pt. rewrite IDR in DE. auto 10.
      - auto. }
    inversion CO; subst es o; cbn [In app] in IN; try (repeat (destruct IN as [IN|IN]; [discriminate|]); destruct IN; fail).
    + apply in_app_or in IN as [IN|IN]; [eapply MV; eassumption|]. cbn [In] in IN. repeat (destruct IN as [IN|IN]; [discriminate|]); destruct IN.
    + eapply MV; eassumption.
  - destruct (NEWC RT_REVOKE (or_intror eq_refl) H).
Qed.

(** ** The state machine of the challenge modules *)
Lemma chal_machine : forall E cfg i ty params r h, live r -> handle_challenge E cfg i ty params r = Some h ->
  (exists code info, h_out h = Ok (code, info) /\ code <> NO_ERROR /\ rq_status (h_req h) = ST_FAILURE /\ rq_cs (h_req h) = None) \/
  (h_out h = Ok (NO_ERROR, []) /\ rq_status (h_req h) = ST_CHALLENGE /\ rq_cs (h_req h) <> None) \/
  (h_out h = Ok (NO_ERROR, []) /\ rq_status (h_req h) = ST_PENDING /\ rq_cs (h_req h) = None /\
     rq_status r = ST_CHALLENGE /\ exists cs, rq_cs r = Some cs /\ passes E i params cs ty) \/
  ((forall a, h_out h <> Ok a) /\ h_req h = r).
Proof.
  intros E cfg i ty params r h L H. apply hc_cases in H as [H _].
  destruct H as [o O|code info C|cs em ST S|cs cs' ST C R|cs ST C PA]; cbn [h_out h_req].
  - right. right. right. split; [|reflexivity]. intros a Q. destruct O as [->|[->| ->]]; discriminate.
  - left. exists code, info. split; [reflexivity|]. split; [apply C|]. split; reflexivity.
  - right. left. split; [reflexivity|]. split; [reflexivity|discriminate].
  - right. left. split; [reflexivity|]. split; [reflexivity|discriminate].
  - right. right. left. repeat (split; [reflexivity|]). split; [|eauto]. destruct L as [(A & _)|(A & _)]; [contradiction|exact A].
Qed.

(** ** The possession challenge *)
Lemma possession_start : forall E cfg i params r h, handle_challenge E cfg i (bs "possession") params r = Some h ->
  rq_status r = ST_BEFORE -> h_out h = Ok (NO_ERROR, []) ->
  exists c, credential_in E params c /\ trusted E cfg c /\
    rq_cs (h_req h) = Some (CState (bs "need-proof") (in_t2 i) 1 60
      [(bs "nonce", to_hex (rnd_nonce i)); (bs "issued-cert", to_hex (enc_tlv (cert_tlv E c)))]).
Proof.
  intros E cfg i params r h H ST O. apply hc_cases in H as [H _].
  destruct H as [o Q|code info C|cs em ST' S|cs cs' ST' C R|cs ST' C PA]; cbn [h_out h_req] in *.
  - destruct Q as [->|[->| ->]]; discriminate.
  - injection O as -> ->. destruct C as [C _]. contradiction.
  - remember (bs "possession") as ty eqn:TY. destruct S as [code G|code addr G GA|c CI CC T].
    + exfalso. revert TY. vm_compute. discriminate.
    + exfalso. revert TY. vm_compute. discriminate.
    + exists c. split; [exact CI|]. split; [exact T|]. reflexivity.
  - contradiction.
  - contradiction.
Qed.

Lemma credential_storable : forall E params c, codec_laws E -> credential_in E params c -> wf_cert c /\ fits (o_cert_wire E c) /\ o_cert_unwire E (o_cert_wire E c) = Some c.
Proof.
  intros E params c L (w & b & _ & B & D). unfold data_decode in D. destruct (t_type b =? T_Data); [|discriminate].
  pose proof (l_cert_keeps_wire E L _ _ D) as K. rewrite K. split; [exact (l_cert_wf E L _ _ D)|]. split; [|exact D].
  unfold block_from_value in B. destruct (dec_elem w) as [[t rest]|] eqn:DE; [|discriminate]. apply dec_elem_wf in DE. destruct rest; [|discriminate]. injection B as <-. apply DE.
Qed.
Lemma stored_credential : forall E c, fits (o_cert_wire E c) -> block_from_value (enc_tlv (cert_tlv E c)) = Some (cert_tlv E c).
Proof. intros E c F. apply block_from_value_enc. split; [vm_compute; reflexivity|]. split; [vm_compute; discriminate|exact F]. Qed.

Definition possession_secrets (E : env) (nonce : bytes) (c : cert) : list (bytes * bytes) :=
  [(bs "nonce", to_hex nonce); (bs "issued-cert", to_hex (enc_tlv (cert_tlv E c)))].
Lemma secrets_get : forall E nonce c, sec_get (bs "nonce") (possession_secrets E nonce c) = Some (to_hex nonce) /\
  sec_get (bs "issued-cert") (possession_secrets E nonce c) = Some (to_hex (enc_tlv (cert_tlv E c))).
Proof. intros. split; reflexivity. Qed.

(** What happens at the second step. *)
Lemma possession_second : forall E cfg i params r cs nonce c h, codec_laws E ->
  fits (o_cert_wire E c) -> o_cert_unwire E (o_cert_wire E c) = Some c ->
  rq_status r <> ST_BEFORE -> rq_cs r = Some cs -> cs_status cs = bs "need-proof" -> cs_secrets cs = possession_secrets E nonce c ->
  handle_challenge E cfg i (bs "possession") params r = Some h ->
  (exists proof, h_out h = Ok (NO_ERROR, []) /\ rq_status (h_req h) = ST_PENDING /\ pair_in params (bs "proof") proof /\ cert_ok c = true /\ o_verify E (public_key c) (MRaw nonce) proof = true) \/
  (exists code info, h_out h = Ok (code, info) /\ code <> NO_ERROR) \/
  ((forall a, h_out h <> Ok a) /\ (cert_ok c = false \/ o_pubkey_ok E (public_key c) = false \/ params = [] \/ forall l, cc_anchors cfg <> Ok l)).
Proof.
  intros E cfg i params r cs nonce c h L F U ST C SS SEC H.
  unfold handle_challenge in H. change (bytes_eqb (bs "possession") CH_PIN) with false in H. change (bytes_eqb (bs "possession") CH_EMAIL) with false in H.
  change (bytes_eqb (bs "possession") CH_POSSESSION) with true in H. cbv iota in H. injection H as <-. unfold handle_possession.
  destruct (cc_anchors cfg) as [anchors| | |] eqn:A;
    [|right; right; cbn [h_out ret_exn ret_ub ret_hang]; (split; [intros a Q; discriminate|]); right; right; right; intros l Q; discriminate..].
  destruct params as [|p0 ps] eqn:PS; [right; right; split; [intros a Q; discriminate|auto]|]. rewrite <- PS in *.
  destruct (poss_loop E params None []) as [[cred proof]|] eqn:PL; [|right; left; eexists _, _; split; [reflexivity|discriminate]].
  destruct (poss_loop_spec _ _ _ _ _ _ PL) as [_ PP].
  apply N.eqb_neq in ST. rewrite ST, C. change NEED_PROOF with (bs "need-proof"). rewrite SS. change (bytes_eqb (bs "need-proof") (bs "need-proof")) with true. cbv iota.
  destruct (has_content cred); [right; left; eexists _, _; split; [reflexivity|discriminate]|].
  destruct proof as [|q0 qs] eqn:PF; [right; left; eexists _, _; split; [reflexivity|discriminate]|]. rewrite <- PF in *.
  destruct PP as [PP|PP]; [congruence|]. rewrite SEC. change K_CRED with (bs "issued-cert"). change K_NONCE with (bs "nonce").
  destruct (secrets_get E nonce c) as [-> ->]. rewrite !from_to_hex, (stored_credential E c F).
  unfold cert_decode, data_decode. change (t_type (cert_tlv E c) =? T_Data) with true. cbv iota. change (t_val (cert_tlv E c)) with (o_cert_wire E c). rewrite U.
  destruct (cert_ok c) eqn:OK; [|right; right; split; [intros a Q; discriminate|auto]].
  destruct (o_pubkey_ok E (public_key c)) eqn:PK; cbn [negb]; [|right; right; split; [intros a Q; discriminate|auto]].
  destruct (o_verify E (public_key c) (MRaw nonce) proof) eqn:V; [left; exists proof; auto 10|right; left; eexists _, _; split; [reflexivity|discriminate]].
Qed.

Lemma possession_sound : forall E cfg1 i1 params1 r1 h1 cfg2 i2 params2 r2 h2 cs1 cs2, codec_laws E ->
  handle_challenge E cfg1 i1 (bs "possession") params1 r1 = Some h1 -> rq_status r1 = ST_BEFORE -> h_out h1 = Ok (NO_ERROR, []) ->
  rq_cs (h_req h1) = Some cs1 -> rq_status r2 = ST_CHALLENGE -> rq_cs r2 = Some cs2 -> cs_status cs2 = cs_status cs1 -> cs_secrets cs2 = cs_secrets cs1 ->
  handle_challenge E cfg2 i2 (bs "possession") params2 r2 = Some h2 -> h_out h2 = Ok (NO_ERROR, []) ->
  exists c proof, credential_in E params1 c /\ trusted E cfg1 c /\ pair_in params2 (bs "proof") proof /\
    o_verify E (public_key c) (MRaw (rnd_nonce i1)) proof = true /\ rq_status (h_req h2) = ST_PENDING.
Proof.
  intros E cfg1 i1 params1 r1 h1 cfg2 i2 params2 r2 h2 cs1 cs2 L H1 ST1 O1 C1 ST2 C2 SS SE H2 O2.
  destruct (possession_start E cfg1 i1 params1 r1 h1 H1 ST1 O1) as (c & CI & T & CS). rewrite C1 in CS. injection CS as ->.
  cbn [cs_status cs_secrets] in SS, SE. destruct (credential_storable E params1 c L CI) as (_ & F & U).
  destruct (possession_second E cfg2 i2 params2 r2 cs2 (rnd_nonce i1) c h2 L F U) as [(proof & _ & P & PI & _ & V)|[(code & info & O & N)|(O & _)]];
    try assumption.
  - rewrite ST2. discriminate.
  - exists c, proof. auto 10.
  - rewrite O2 in O. injection O as <- <-. contradiction.
  - destruct (O _ O2).
Qed.

Lemma possession_wrong : forall E cfg1 i1 params1 r1 h1 cfg2 i2 params2 r2 h2 cs1 cs2 c anchors, codec_laws E ->
  handle_challenge E cfg1 i1 (bs "possession") params1 r1 = Some h1 -> rq_status r1 = ST_BEFORE -> h_out h1 = Ok (NO_ERROR, []) ->
  rq_cs (h_req h1) = Some cs1 -> rq_status r2 = ST_CHALLENGE -> rq_cs r2 = Some cs2 -> cs_status cs2 = cs_status cs1 -> cs_secrets cs2 = cs_secrets cs1 ->
  handle_challenge E cfg2 i2 (bs "possession") params2 r2 = Some h2 ->
  (forall c', credential_in E params1 c' -> c' = c) -> cert_ok c = true -> o_pubkey_ok E (public_key c) = true -> cc_anchors cfg2 = Ok anchors -> params2 <> [] ->
  (forall proof, pair_in params2 (bs "proof") proof -> o_verify E (public_key c) (MRaw (rnd_nonce i1)) proof = false) ->
  exists code info, h_out h2 = Ok (code, info) /\ code <> NO_ERROR /\ rq_status (h_req h2) = ST_FAILURE.
Proof.
  intros E cfg1 i1 params1 r1 h1 cfg2 i2 params2 r2 h2 cs1 cs2 c anchors L H1 ST1 O1 C1 ST2 C2 SS SE H2 UC OK PK AN NE W.
  destruct (possession_start E cfg1 i1 params1 r1 h1 H1 ST1 O1) as (c' & CI & T & CS). pose proof (UC c' CI). subst c'. rewrite C1 in CS. injection CS as ->.
  cbn [cs_status cs_secrets] in SS, SE. destruct (credential_storable E params1 c L CI) as (_ & F & U).
  destruct (possession_second E cfg2 i2 params2 r2 cs2 (rnd_nonce i1) c h2 L F U) as [(proof & _ & P & PI & _ & V)|[(code & info & O & N)|(O & [Q|[Q|[Q|Q]]])]];
    try assumption; try congruence.
  - rewrite ST2. discriminate.
  - rewrite (W proof PI) in V. discriminate.
  - exists code, info. split; [exact O|]. split; [exact N|]. apply hc_cases in H2 as [H2 _].
    destruct H2 as [o Q|code' info' C|cs em ST' S|cs cs' ST' C R|cs ST' C PA]; cbn [h_out h_req] in *; try (injection O as <- <-; contradiction).
    + destruct Q as [->|[->| ->]]; discriminate.
    + reflexivity.
Qed.

(** ** The profile packet *)
Definition no_profile (es : list eff) : Prop := forall d, ~ In (EProfile d) es.
Lemma no_profile_apply : forall S (ops : store_ops S) es s, no_profile es -> ca_prof (apply_effs ops es s) = ca_prof s.
Proof.
  intros S ops es. unfold apply_effs. induction es as [|e es IH]; intros s N; [reflexivity|]. cbn [fold_left]. rewrite IH.
  - destruct e; cbn [apply_eff]; try reflexivity; [destruct (s_add ops (ca_store s) r); reflexivity|destruct (s_update ops (ca_store s) r); reflexivity|].
    destruct (N d). left. reflexivity.
  - intros d IN. apply (N d). right. exact IN.
Qed.
Ltac not_in := let d := fresh in let IN := fresh in intros d IN; cbn [In app] in IN; repeat (destruct IN as [IN|IN]; [discriminate|]); destruct IN.
Lemma handle_profile : forall E g S (ops : store_ops S) v s i x es o, v <> VInfo -> handle E g ops v s i x = (es, o) -> no_profile es.
Proof.
  intros E g S ops v s i x es o V H.
  assert (NEWC : forall rt, rt = RT_NEW \/ rt = RT_REVOKE -> 
    on_new E g (fun r => match s_add ops (ca_store s) r with Some _ => true | None => false end) (ca_idkey s) i rt x = (es, o) -> no_profile es).
  { intros rt RT H'. apply on_new_cases in H' as [(peer & c & _ & _ & _ & ->)|[(code & info & _ & -> & _)|(_ & -> & T)]]; [..|exact RT]; not_in. }
  destruct v; cbn [handle] in H; [contradiction|..].
  - unfold on_probe in H. destruct (do params <- _; _) as [[[|? ?] [|? ?]]| | |]; injection H as <- <-; not_in.
  - exact (NEWC RT_NEW (or_introl eq_refl) H).
  - destruct (on_challenge_cases E g (s_get ops (ca_store s)) i x) as [(r & _ & CO)|[(_ & _ & info & _ & Q)|(_ & Q)]];
      [|rewrite Q in H; injection H as <- <-; not_in..].
    rewrite H in CO.
    assert (EM : forall em l, no_profile l -> no_profile (email_effs em ++ l)) by (intros [cmd|] l N d IN; [destruct IN as [IN|IN]; [discriminate|]|]; exact (N d IN)).
    inversion CO; subst es o; try (not_in; fail).
    + apply EM. not_in.
    + rewrite <- (app_nil_r (email_effs em)). apply EM. not_in.
  - exact (NEWC RT_REVOKE (or_intror eq_refl) H).
Qed.

Lemma get_profile_spec : forall E g prof i es d, on_get_profile E g prof i = (es, Ok d) ->
  (prof = Some d /\ es = []) \/ (prof = None /\ es = [EProfile d] /\ d_name d = profile_name g (in_version i) /\ data_signed_by E d (cf_sk g)).
Proof.
  intros E g prof i es d H. unfold on_get_profile, profile_data in H. destruct prof as [d0|]; [injection H as <- <-; auto|].
  destruct (info_encode E (cfp g) (cf_cert g)) as [b| | |]; cbn [bind] in H; try discriminate. injection H as <- <-. right. split; [reflexivity|]. split; [reflexivity|]. split; reflexivity.
Qed.
Lemma discovery_cases : forall E g prof i x es o, on_discovery E g prof i x = (es, o) ->
  (exists es0 d, on_get_profile E g prof i = (es0, Ok d) /\ o = Ok tt /\ exists m, es = es0 ++ [EPut m] /\
     d_content m = name_wire (prefix_neg 1 (d_name d)) /\
     d_name m = prefix_neg 2 (d_name d) ++ [Tlv T_Keyword (bs "metadata"); version_comp (in_mversion i); Tlv T_Segment (nni_enc 0)] /\ data_signed_by E m (cf_sk g)) \/
  (es = [] /\ forall u, o <> Ok u).
Proof.
  intros E g prof i x es o H. unfold on_discovery in H. destruct (on_get_profile E g prof i) as [es0 o0] eqn:G.
  destruct o0 as [d| | |]; injection H as <- <-.
  - left. exists es0, d. split; [reflexivity|]. split; [reflexivity|]. eexists. split; [reflexivity|]. split; [reflexivity|]. split; reflexivity.
  - right. split; [|discriminate]. unfold on_get_profile in G. destruct (profile_data E g prof (in_version i)); inversion G; reflexivity.
  - right. split; [|discriminate]. unfold on_get_profile in G. destruct (profile_data E g prof (in_version i)); inversion G; reflexivity.
  - right. split; [|discriminate]. unfold on_get_profile in G. destruct (profile_data E g prof (in_version i)); inversion G; reflexivity.
Qed.

(** How an event changes the profile packet. *)
Definition prof_ok (E : env) (g : ca_cfg) (p : option data) : Prop :=
  forall d, p = Some d -> exists v, d_name d = profile_name g v /\ data_signed_by E d (cf_sk g).
Lemma apply_profile : forall S (ops : store_ops S) d l s, no_profile l -> ca_prof (apply_effs ops (EProfile d :: l) s) = Some d.
Proof. intros S ops d l s N. unfold apply_effs. cbn [fold_left]. fold (apply_effs ops l (apply_eff ops (EProfile d) s)). rewrite no_profile_apply by exact N. reflexivity. Qed.
Lemma interest_profile : forall E g S (ops : store_ops S) s i x es o es', on_interest E g ops s i x = (es, o) -> cut es' es -> prof_ok E g (ca_prof s) ->
  prof_ok E g (ca_prof (apply_effs ops es' s)) /\ (ca_prof s <> None -> ca_prof (apply_effs ops es' s) = ca_prof s).
Proof.
  intros E g S ops s i x es o es' H C K.
  assert (Q : no_profile es -> prof_ok E g (ca_prof (apply_effs ops es' s)) /\ (ca_prof s <> None -> ca_prof (apply_effs ops es' s) = ca_prof s)).
  { intros N. rewrite no_profile_apply; [auto|]. destruct C as [rest ->]. intros d IN. apply (N d). apply in_or_app. auto. }
  destruct (on_interest_cases E g S ops s i x) as [[_ O]|(v & AD & O)]; rewrite O in H; [injection H as <- <-; apply Q; not_in|].
  destruct v; try (apply Q; eapply handle_profile; [|exact H]; discriminate). cbn [handle] in H.
  apply discovery_cases in H as [(es0 & d & G & _ & m & -> & _)|[-> _]]; [|apply Q; not_in].
  apply get_profile_spec in G as [[P ->]|(P & -> & D & DS)].
  - apply Q. not_in.
  - cbn [app] in C. apply cut_cons in C as [->|(es1 & -> & C)]; [split; [exact K|auto]|].
    rewrite apply_profile; [|destruct C as [rest C]; intros d' IN; assert (IN' : In (EProfile d') [EPut m]) by (rewrite C; apply in_or_app; auto); destruct IN' as [IN'|[]]; discriminate].
    split; [|intros N; contradiction]. intros d' Q'. injection Q' as <-. eauto.
Qed.
Lemma step_profile : forall E g S (ops : store_ops S) s ev s' es, step E g ops s ev = Some (s', es) -> prof_ok E g (ca_prof s) ->
  prof_ok E g (ca_prof s') /\ (no_restart [ev] -> ca_prof s <> None -> ca_prof s' = ca_prof s).
Proof.
  intros E g S ops s ev s' es H K. destruct ev as [i x|i x n key|key|i]; cbn [step] in H.
  - destruct (on_interest E g ops s i x) as [es0 o] eqn:O. destruct (interest_profile E g S ops s i x es0 o es0 O (cut_refl _) K) as [A B].
    destruct o as [[]| | |]; try discriminate; injection H as <- <-; auto.
  - destruct (on_interest E g ops s i x) as [es0 o] eqn:O.
    assert (Q : s' = restart ops key (apply_effs ops (firstn n es0) s)) by (destruct o; try discriminate; injection H as <- <-; reflexivity). subst s'.
    split; [intros d Q; discriminate|]. intros N. inversion N; contradiction.
  - injection H as <- <-. split; [intros d Q; discriminate|]. intros N. inversion N; contradiction.
  - destruct (on_get_profile E g (ca_prof s) i) as [es0 o] eqn:G.
    destruct o as [d| | |]; try discriminate; injection H as <- <-.
    + apply get_profile_spec in G as [[P ->]|(P & -> & D & DS)]; [auto|]. rewrite apply_profile by not_in.
      split; [intros d' Q; injection Q as <-; eauto|]. intros _ N. contradiction.
    + unfold on_get_profile in G. destruct (profile_data E g (ca_prof s) (in_version i)); inversion G; subst; auto.
Qed.
Lemma run_profile : forall E g S (ops : store_ops S) evs s s' h, run E g ops s evs = Some (s', h) -> prof_ok E g (ca_prof s) ->
  prof_ok E g (ca_prof s') /\ (no_restart evs -> ca_prof s <> None -> ca_prof s' = ca_prof s).
Proof.
  induction evs as [|ev evs IH]; intros s s' h H K; cbn [run] in H; [injection H as <- <-; auto|].
  destruct (step E g ops s ev) as [[s1 es]|] eqn:ST; [|discriminate]. destruct (run E g ops s1 evs) as [[s2 h2]|] eqn:R; [|discriminate].
  injection H as <- <-. destruct (step_profile E g S ops s ev s1 es ST K) as [K1 F1]. destruct (IH s1 s2 h2 R K1) as [K2 F2].
  split; [exact K2|]. intros N P. inversion N as [|? ? N1 N2]; subst. assert (Q : ca_prof s1 = ca_prof s) by (apply F1; [constructor; [exact N1|constructor]|exact P]).
  rewrite F2; [exact Q|exact N2|rewrite Q; exact P].
Qed.
Lemma reach_profile : forall E g S (ops : store_ops S) s, reachable E g ops s -> prof_ok E g (ca_prof s).
Proof. intros E g S ops s (key & evs & h & R). apply (run_profile E g S ops evs _ s h R). intros d Q. discriminate. Qed.

Lemma profile_stable : forall E g S (ops : store_ops S) s i s1 es d evs s2 h i2 es2 o2,
  on_get_profile E g (ca_prof s) i = (es, Ok d) -> step E g ops s (EvProfile i) = Some (s1, es) ->
  run E g ops s1 evs = Some (s2, h) -> no_restart evs -> reachable E g ops s ->
  on_get_profile E g (ca_prof s2) i2 = (es2, o2) -> o2 = Ok d.
Proof.
  intros E g S ops s i s1 es d evs s2 h i2 es2 o2 G ST R N RE G2.
  destruct (step_profile E g S ops s _ s1 es ST (reach_profile E g S ops s RE)) as [K1 F1].
  destruct (run_profile E g S ops evs s1 s2 h R K1) as [_ F2].
  assert (P1 : ca_prof s1 = Some d).
  { cbn [step] in ST. rewrite G in ST. injection ST as <-. apply get_profile_spec in G as [[P ->]|(P & -> & D & DS)]; [exact P|]. apply apply_profile. not_in. }
  assert (P2 : ca_prof s2 = Some d) by (rewrite F2; [exact P1|exact N|congruence]).
  unfold on_get_profile, profile_data in G2. rewrite P2 in G2. injection G2 as _ <-. reflexivity.
Qed.

Lemma discovery_reply : forall E g S (ops : store_ops S) s i x es, reachable E g ops s -> addressed g VInfo (i_name x) ->
  on_interest E g ops s i x = (es, Ok tt) ->
  exists d m v, on_get_profile E g (ca_prof s) i = (removelast es, Ok d) /\ puts es = [m] /\ d_name d = profile_name g v /\ data_signed_by E d (cf_sk g) /\
    ca_prof (apply_effs ops es s) = Some d /\
    d_content m = name_wire (p_prefix (cfp g) ++ [gc (bs "CA"); gc (bs "INFO"); version_comp v]) /\ data_signed_by E m (cf_sk g) /\
    d_name m = p_prefix (cfp g) ++ [gc (bs "CA"); gc (bs "INFO"); Tlv T_Keyword (bs "metadata"); version_comp (in_mversion i); Tlv T_Segment (nni_enc 0)].
Proof.
  intros E g S ops s i x es RE AD H. rewrite (on_interest_at E g S ops _ s i x AD) in H. cbn [handle] in H.
  apply discovery_cases in H as [(es0 & d & G & _ & m & -> & M1 & M2 & M3)|[_ Q]]; [|destruct (Q tt eq_refl)].
  pose proof (reach_profile E g S ops s RE) as K.
  assert (X : (exists v, d_name d = profile_name g v /\ data_signed_by E d (cf_sk g)) /\ ca_prof (apply_effs ops (es0 ++ [EPut m]) s) = Some d /\ puts es0 = []).
  { pose proof G as G'. apply get_profile_spec in G' as [[P ->]|(P & -> & D & DS)].
    - split; [exact (K d P)|]. split; [exact P|reflexivity].
    - split; [eauto|]. split; [apply apply_profile; not_in|reflexivity]. }
  destruct X as ((v & D & DS) & P & PE). exists d, m, v. rewrite removelast_last. split; [exact G|]. split; [rewrite puts_app, PE; reflexivity|].
  split; [exact D|]. split; [exact DS|]. split; [exact P|]. rewrite D in M1, M2.
  assert (N1 : prefix_neg 1 (profile_name g v) = p_prefix (cfp g) ++ [gc (bs "CA"); gc (bs "INFO"); version_comp v]).
  { unfold profile_name. exact (eq_trans (f_equal (prefix_neg 1) (app_assoc (p_prefix (cfp g)) [gc (bs "CA"); gc (bs "INFO"); version_comp v] [Tlv T_Segment (nni_enc 0)])) (prefix_neg_app _ [Tlv T_Segment (nni_enc 0)])). }
  assert (N2 : prefix_neg 2 (profile_name g v) = p_prefix (cfp g) ++ [gc (bs "CA"); gc (bs "INFO")]).
  { unfold profile_name. exact (eq_trans (f_equal (prefix_neg 2) (app_assoc (p_prefix (cfp g)) [gc (bs "CA"); gc (bs "INFO")] [version_comp v; Tlv T_Segment (nni_enc 0)])) (prefix_neg_app _ [version_comp v; Tlv T_Segment (nni_enc 0)])). }
  rewrite N1 in M1. rewrite N2 in M2. split; [exact M1|]. split; [exact M3|]. rewrite M2, <- app_assoc. reflexivity.
Qed.

(** ** REVOKE requests passing the challenge *)
Lemma opened_opens : forall E x r params ty dv, opened E x r params ty dv -> opens E (rq_key r) (rq_id r) x params /\ selects params ty.
Proof.
  intros E x r params ty dv (pt & D & PN & PP & SE). split; [|exact SE].
  apply decode_ok_inv in D as (iv & tag & ct & V & _ & DE & _ & _). unfold dec_view in V. destruct (parse (params_of x)) as [els|] eqn:P; [|discriminate].
  destruct (get T_EncryptedPayload els) as [p|] eqn:G1; [|discriminate]. destruct (get T_InitializationVector els) as [v|] eqn:G2; [|discriminate].
  destruct (get T_AuthenticationTag els) as [t|] eqn:G3; [|discriminate]. destruct (_ && _); [|discriminate]. injection V as <- <- <-.
  exists els, v, t, p, pt. auto 10.
Qed.
Lemma chal_encode_status : forall E r issued fwd rnd o r3, chal_encode E r issued fwd rnd = (o, r3) -> rq_status r3 = rq_status r.
Proof.
  intros E r issued fwd rnd o r3 H. unfold chal_encode in H. destruct (chal_plain r issued fwd); [|injection H as _ <-; reflexivity..].
  destruct (encode_aes E (rq_key r) (enc_tlvs a) (rq_id r) (rq_eiv r) rnd). injection H as _ <-. reflexivity.
Qed.
Lemma revoke_outcome : forall E g S (ops : store_ops S) s i x es o id r, ca_at E g ops s -> names_request g id x -> pending ops s id = Some r ->
  rq_type r = RT_REVOKE -> on_interest E g ops s i x = (es, o) ->
  (forall c, ~ In (EIssue c) es) /\
  (forall r3, In (ECallback r3) es -> rq_status r3 = ST_SUCCESS -> 
    pending ops (apply_effs ops es s) id = None /\ signed_by E x (public_key (rq_cert r)) /\ rq_status r <> ST_BEFORE /\
    exists cs params ty d, rq_cs r = Some cs /\ opens E (rq_key r) id x params /\ selects params ty /\ passes E i params cs ty /\
      es = [EDelete id; EPut d; ECallback r3]).
Proof.
  intros E g S ops s i x es o id r A N P RV H. pose proof (names_addressed _ _ _ N) as AD.
  destruct (pending_good E g S ops s id r A P) as (IDR & _). pose proof H as H0.
  rewrite (on_interest_at E g S ops _ s i x AD) in H. cbn [handle] in H.
  pose proof (proj2 (challenge_id_names g x id AD) N) as CI.
  pose proof (on_challenge_found E g (s_get ops (ca_store s)) i x r (ex_intro _ id (conj CI P))) as CO. rewrite H in CO.
  assert (MV : forall em l, (forall e, In e l -> (exists q, e = EUpdate q) \/ (exists q, e = EPut q) \/ (exists q, e = ECallback q)) -> forall c, ~ In (EIssue c) (email_effs em ++ l)).
  { intros em l L c IN. apply in_app_or in IN as [IN|IN]; [destruct em; [destruct IN as [IN|[]]; discriminate|destruct IN]|].
    destruct (L _ IN) as [[q Q]|[[q Q]|[q Q]]]; discriminate. }
  inversion CO as [info F NS|code info SB PE|o' SB O'|params ty dv cs em payload r3 SB OP K M CE|params ty dv cs em o' r3 SB OP K M O' CE|params ty dv cs c payload r3 SB OP K NB CS PA RT IC CE|
    params ty dv cs c o' r3 SB OP K NB CS PA RT IC O' CE|params ty dv cs payload r3 SB OP K NB CS PA RT CE|params ty dv cs o' r3 SB OP K NB CS PA RT O' CE]; subst es o;
    try (destruct RT as [RT|RT]; rewrite RV in RT; discriminate); try (split; [intros c' [Q|[]]; discriminate|intros q [Q|[]]; discriminate]).
  - split; [intros c' [Q|[Q|[]]]; discriminate|intros q [Q|[Q|[]]]; discriminate].
  - split; [intros c' []|intros q []].
  - split.
    + intros c. apply MV. intros e [<-|[<-|[<-|[]]]]; eauto.
    + intros q IN ST. apply in_app_or in IN as [IN|IN]; [destruct em; [destruct IN as [IN|[]]; discriminate|destruct IN]|].
      destruct IN as [Q|[Q|[Q|[]]]]; try discriminate. injection Q as ->. apply chal_encode_status in CE. rewrite CE in ST. discriminate ST.
  - split; [intros c; rewrite <- (app_nil_r (email_effs em)); apply MV; intros e []|]. intros q IN. destruct em; [destruct IN as [IN|[]]; discriminate|destruct IN].
  - split; [intros c' [Q|[Q|[Q|[]]]]; discriminate|]. intros q [Q|[Q|[Q|[]]]] ST; try discriminate. injection Q as ->. split.
    + destruct (ca_at_inv E g S ops s A) as (inv & nrm' & SL & I & _). unfold pending. cbn [apply_effs fold_left apply_eff ca_store].
      rewrite IDR, (proj2 (sl_delete E ops inv nrm' SL _ id I)), bytes_eqb_refl. reflexivity.
    + split; [exact SB|]. split; [exact NB|]. destruct (opened_opens E x r params ty dv OP) as [OO SE]. rewrite IDR in OO. exists cs, params, ty. rewrite IDR. eauto 10.
Qed.
Lemma pending_live : forall E g S (ops : store_ops S) s id r, ca_at E g ops s -> pending ops s id = Some r -> rq_id r = id /\ live r.
Proof. intros E g S ops s id r A P. destruct (pending_good E g S ops s id r A P) as (I & _ & (L & _)). auto. Qed.
Lemma revoke_admission : forall E g S (ops : store_ops S) s i x peer c, ca_at E g ops s ->
  addressed g VRevoke (i_name x) -> carries E RT_REVOKE x peer c ->
  forall s' es r, step E g ops s (EvInterest i x) = Some (s', es) -> In (EAdd r) es ->
  rq_cert r = c /\ rq_type r = RT_REVOKE /\ name_policy g (c_name c) /\ cert_signed_by E c (public_key (cf_cert g)).
Proof.
  intros E g S ops s i x peer c A AD C s' es r ST IN. cbn [step] in ST.
  destruct (on_interest E g ops s i x) as [es' o] eqn:OI. assert (EQ : es' = es) by (destruct o; inversion ST; reflexivity). subst es'.
  rewrite (on_interest_new E g S ops s i RT_REVOKE x (or_intror eq_refl) AD) in OI.
  apply on_new_cases in OI as [(peer' & c' & ADM & AO & _ & ->)|[(code & info & _ & -> & PL & RF)|(_ & -> & T)]]; [..|auto];
  cbn [In] in IN; repeat (destruct IN as [IN|IN]; [try discriminate|]); try (destruct IN; fail).
  injection IN as <-. destruct ADM as [_ C' _ _ NP CP _]. apply carries_decode in C; [|auto]. apply carries_decode in C'; [|auto]. rewrite C in C'. injection C' as -> ->.
  split; [reflexivity|]. split; [reflexivity|]. split; [exact NP|]. destruct CP as [[Q _]|[_ CP]]; [discriminate Q|exact CP].
Qed.
