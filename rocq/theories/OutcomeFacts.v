(** What the CA does with a CHALLENGE Interest that can be read. *)
From Verif Require Export TraceCounts.
From Coq Require Import Lia.
Local Open Scope N_scope.

Lemma acceptable_opened : forall E r x params ty, live r -> acceptable E r x params -> selects params ty -> exists dv, opened E x r params ty dv.
Proof.
  intros E r x params ty LV (els & iv & tag & ct & pt & P & G1 & G2 & G3 & L1 & L2 & D & L3 & NE & SM & PP & F1 & F2 & C) SE.
  assert (V : dec_view (params_of x) = Some (t_val iv, t_val tag, t_val ct)).
  { unfold dec_view. rewrite P, G1, G2, G3. unfold blen. rewrite L1, L2. reflexivity. }
  assert (F : fresh_for (t_val iv) (rq_div r) (rq_eiv r)).
  { split.
    - destruct F1 as [Q|Q]; [auto|]. destruct (live_eiv r LV) as [Z|Z]; [auto|]. right. unfold iv12 in Z. split; [lia|exact Q].
    - destruct F2 as [Q|[Q1 Q2]]; [auto|]. destruct (live_div r LV) as [Z|Z]; [auto|]. right. unfold iv12 in Z. split; [lia|]. split; [exact Q2|exact Q1]. }
  pose proof (decode_accepts E (rq_key r) (params_of x) (rq_id r) (rq_div r) (rq_eiv r) _ _ _ pt V F D L3) as DA.
  assert (U : exists dv, update_iv (t_val iv) (blen pt) = Ok dv).
  { unfold update_iv. rewrite blen12 by exact L1. rewrite aes_blocks_small by exact SM. change ((blen pt + 15) / 16) with (blocks16 pt). change (iv_counter (t_val iv)) with (ctr_part (t_val iv)).
    unfold u32_max. destruct (N.leb_spec (4294967295 - ctr_part (t_val iv)) (blocks16 pt)); [lia|eauto]. }
  destruct U as (dv & U). rewrite U in DA. exists dv, pt. auto.
Qed.

Lemma chal_forward : forall E g S (ops : store_ops S) s i x id r params ty dv, ca_at E g ops s -> names_request g id x -> pending ops s id = Some r ->
  signed_by E x (public_key (rq_cert r)) -> opened E x r params ty dv ->
  on_interest E g ops s i x = match handle_challenge E (cf_chal g) i ty params (set_div dv r) with
      | None => drop_error E g x [] (rq_id r) INVALID_PARAMETER (bs "Unrecognized challenge type.")
      | Some h => match h_out h with
          | Exn => (email_effs (h_email h), Exn) | UB => (email_effs (h_email h), UB) | Hang => (email_effs (h_email h), Hang)
          | Ok (code, info) => if negb (code =? NO_ERROR) then drop_error E g x (email_effs (h_email h)) (rq_id r) code info else after_challenge E g i x (email_effs (h_email h)) (h_req h)
          end end.
Proof.
  intros E g S ops s i x id r params ty dv A N P SB (pt & D & NE & PP & (t & GT & TV)). pose proof (names_addressed g x id N) as AD.
  rewrite (on_interest_at E g S ops _ s i x AD). cbn [handle]. unfold on_challenge. rewrite (proj2 (challenge_id_names g x id AD) N).
  change (s_get ops (ca_store s) id) with (pending ops s id). rewrite P. rewrite (proj2 (verify_interest_iff E x (rq_cert r)) SB). cbn [negb]. rewrite D.
  destruct pt as [|b pt]; [contradiction|]. rewrite PP, GT, TV. destruct (handle_challenge E (cf_chal g) i ty params (set_div dv r)) as [h|]; [|reflexivity].
  destruct (h_out h) as [[code info]| | |]; reflexivity.
Qed.
Lemma code_forward : forall E cfg i params r cs ty given code, rq_status r = ST_CHALLENGE -> rq_cs r = Some cs -> guesses i params cs ty given ->
  sec_get (bs "code") (cs_secrets cs) = Some code ->
  exists life msg, code_life ty life /\ fits msg /\ handle_challenge E cfg i ty params r = Some
    (if bytes_eqb given code then ret_success ty r None
     else if 1 <? cs_tries cs then ret_new ty (in_t2 i) r (bs "wrong-code") (cs_secrets cs) (cs_tries cs - 1) (Z.quot (sec life - (in_t1 i - cs_time cs)) (sec 1)) None
     else ret_error r OUT_OF_TRIES msg None).
Proof.
  intros E cfg i params r cs ty given code ST C (life & t & CL & WC & GP & GV & LT) SC.
  assert (W : bytes_eqb (cs_status cs) NEED_CODE || bytes_eqb (cs_status cs) WRONG_CODE = true).
  { destruct WC as [->| ->]; reflexivity. }
  assert (L : forall life', life' = life -> (sec life' <=? in_t1 i - cs_time cs)%Z = false) by (intros ? ->; apply Z.leb_gt; exact LT).
  destruct CL.
  - exists 3600%Z, (bs "Ran out tires."). split; [constructor|]. split; [unfold fits; vm_compute; reflexivity|].
    unfold handle_challenge. change (bytes_eqb (bs "pin") CH_PIN) with true. cbv iota. unfold handle_pin. rewrite ST. change (ST_CHALLENGE =? ST_BEFORE) with false. cbv iota.
    unfold check_code. rewrite C, W, GP. rewrite (L pin_life eq_refl). change K_CODE with (bs "code"). rewrite SC, GV. reflexivity.
  - exists 300%Z, (bs "Ran out of tries."). split; [constructor|]. split; [unfold fits; vm_compute; reflexivity|].
    unfold handle_challenge. change (bytes_eqb (bs "email") CH_PIN) with false. change (bytes_eqb (bs "email") CH_EMAIL) with true. cbv iota. unfold handle_email. rewrite ST. change (ST_CHALLENGE =? ST_BEFORE) with false. cbv iota.
    unfold check_code. rewrite C, W, GP. rewrite (L email_life eq_refl). change K_CODE with (bs "code"). rewrite SC, GV. reflexivity.
Qed.

(** Encoding never fails on a small payload while the counter is small. *)
Lemma chal_encode_fine : forall E r issued fwd rnd l, (rq_eiv r = [] \/ iv12 (rq_eiv r)) -> length rnd = 8%nat -> chal_plain r issued fwd = Ok l ->
  blen (enc_tlvs l) < 2 ^ 35 -> iv_counter (initial_iv (rq_eiv r) rnd) < 2 ^ 30 -> exists payload r3, chal_encode E r issued fwd rnd = (Ok payload, r3).
Proof.
  intros E r issued fwd rnd l V L P B C. unfold chal_encode. rewrite P.
  destruct (encode_aes_spec E (rq_key r) (enc_tlvs l) (rq_id r) (rq_eiv r) rnd V L) as [(iv2 & U & Q)|[U Q]]; rewrite Q; [eauto|].
  exfalso. unfold update_iv in U. rewrite blen12 in U by (apply iv12_initial; assumption). rewrite aes_blocks_small in U by lia.
  assert ((blen (enc_tlvs l) + 15) / 16 < 2 ^ 31 + 1) by (apply N.div_lt_upper_bound; lia).
  unfold u32_max in U. destruct (N.leb_spec (4294967295 - iv_counter (initial_iv (rq_eiv r) rnd)) ((blen (enc_tlvs l) + 15) / 16)); [lia|discriminate].
Qed.
Lemma initial_small : forall E g S (ops : store_ops S) s id r i, ca_at E g ops s -> pending ops s id = Some r -> iv_counter (initial_iv (rq_eiv r) (rnd_iv i)) <= 64.
Proof.
  intros E g S ops s id r i A P. destruct (pending_live E g S ops s id r A P) as [_ LV]. destruct LV as [(_ & _ & _ & Q & _)|(_ & _ & (cs & C & _) & Q & _)].
  - rewrite Q, initial_counter by apply rnd_iv_len. lia.
  - rewrite (initial_ne _ _ Q). pose proof (counter_small E g S ops s id r cs A P C). lia.
Qed.

Section Code.
  Context {E : env} {g : ca_cfg} {S : Type} {ops : store_ops S}.
  Lemma step_of : forall s i x es id r, ca_at E g ops s -> on_interest E g ops s i x = (es, Ok tt) -> names_request g id x -> pending ops s id = Some r ->
    exists s' nrm m, step E g ops s (EvInterest i x) = Some (s', es) /\ nrm_ok nrm /\ chal_step E g nrm i x r es m /\ pending ops s' id = m.
  Proof.
    intros s i x es id r A OI N P. pose proof (ok_step E g S ops s i x es OI) as ST. destruct (pending_chal_step E g S ops _ _ _ _ i x id r A ST eq_refl N P) as (nrm & m & NO & _ & _ & CS & Z).
    exists (apply_effs ops es s), nrm, m. split; [exact ST|]. split; [exact NO|]. split; [exact CS|]. destruct Z as [Z|[[] _]]. exact Z.
  Qed.
  Lemma step_update : forall nrm i x r es m r3, chal_step E g nrm i x r es m -> In (EUpdate r3) es -> m = Some (nrm r3).
  Proof.
    intros nrm i x r es m r3 CS IN.
    assert (TT : forall tail d r4, cut tail [EPut d; ECallback r4] -> ~ In (EUpdate r3) tail).
    { intros tail d r4 C Q. apply (in_cut _ _ _ C) in Q. destruct Q as [Q|[Q|[]]]; discriminate. }
    inversion CS as [es1 F|info FI NS|code info tail SB PE C|params ty dv cs em payload r4 tail SB OP K MV CE C|params ty dv cs c0 PF RT IC|params ty dv cs c0 tail PF RT IC T|params ty dv cs tail PF RT T]; subst.
    - rewrite Forall_forall in F. destruct (F _ IN).
    - destruct IN as [Q|[]]; discriminate.
    - destruct IN as [Q|IN]; [discriminate|]. apply (in_cut _ _ _ C) in IN. destruct IN as [Q|[]]; discriminate.
    - apply in_app_or in IN as [IN|[Q|IN]]; [|congruence|destruct (TT _ _ _ C IN)]. pose proof (emails em) as F. rewrite Forall_forall in F. destruct (F _ IN).
    - destruct IN as [Q|[]]; discriminate.
    - destruct IN as [Q|[Q|IN]]; try discriminate. destruct T as [->|(p & r4 & _ & C)]; [destruct IN|destruct (TT _ _ _ C IN)].
    - destruct IN as [Q|IN]; try discriminate. destruct T as [->|(p & r4 & _ & C)]; [destruct IN|destruct (TT _ _ _ C IN)].
  Qed.

  Lemma wrong_code : forall s i x id r cs params ty given code, ca_at E g ops s -> names_request g id x -> pending ops s id = Some r -> rq_cs r = Some cs ->
    signed_by E x (public_key (rq_cert r)) -> acceptable E r x params -> selects params ty -> guesses i params cs ty given -> sec_get (bs "code") (cs_secrets cs) = Some code ->
    given <> code -> exists s' es, step E g ops s (EvInterest i x) = Some (s', es) /\ puts es <> [] /\
      ((1 < cs_tries cs /\ exists r' cs', pending ops s' id = Some r' /\ rq_cs r' = Some cs' /\ cs_tries cs' = cs_tries cs - 1 /\ cs_secrets cs' = cs_secrets cs) \/
       (cs_tries cs = 1 /\ pending ops s' id = None /\ exists d, In (EPut d) es /\ error_reply E g x OUT_OF_TRIES d)).
  Proof.
    intros s i x id r cs params ty given code A N P C SB AC SE GU SC NE. destruct (pending_live E g S ops s id r A P) as [ID LV]. pose proof (live_cs_none r cs LV C) as STA.
    destruct (acceptable_opened E r x params ty LV AC SE) as (dv & OP).
    pose proof (chal_forward E g S ops s i x id r params ty dv A N P SB OP) as FW.
    destruct (code_forward E (cf_chal g) i params (set_div dv r) cs ty given code STA C GU SC) as (life & msg & CL & FM & HC).
    rewrite HC in FW. rewrite (proj2 (bytes_eqb_neq given code) NE) in FW.
    assert (T : 1 <= cs_tries cs) by (destruct LV as [(_ & _ & Q & _)|(_ & _ & (cs0 & Q & B) & _)]; [congruence|assert (cs0 = cs) by congruence; subst; lia]).
    assert (KT : known_type ty) by (destruct CL; unfold known_type; auto).
    destruct (N.ltb_spec 1 (cs_tries cs)) as [T1|T1].
    - cbn [ret_new h_out h_email h_req email_effs] in FW. change (negb (NO_ERROR =? NO_ERROR)) with false in FW. cbv iota in FW.
      set (cs' := CState (bs "wrong-code") (in_t2 i) (cs_tries cs - 1) (Z.quot (sec life - (in_t1 i - cs_time cs)) (sec 1)) (cs_secrets cs)) in *.
      assert (RT : recorded_type ty = ty) by (destruct CL; reflexivity).
      assert (MQ : set_cs (Some cs') (set_ctype ty (set_status ST_CHALLENGE (set_div dv r))) = moved dv ty cs' r) by (unfold moved; rewrite RT; reflexivity). rewrite MQ in FW.
      unfold after_challenge in FW. change (rq_status (moved dv ty cs' r) =? ST_PENDING) with false in FW. cbv iota in FW.
      assert (MV : moves E (cf_chal g) i params (set_div dv r) ty cs' None).
      { right. cbn [set_div rq_status rq_cs]. split; [rewrite STA; discriminate|]. split; [reflexivity|]. exists cs. split; [exact C|]. exists given, code, life. auto 10. }
      destruct (moved_plain E (cf_chal g) i params r dv ty cs' None MV) as (nonce & NN & PL).
      destruct (told_size i (moved dv ty cs' r) cs' nonce (moves_status _ _ _ _ _ _ _ _ MV) NN) as [_ SZ].
      pose proof (initial_small E g S ops s id r i A P) as CI.
      destruct (chal_encode_fine E (moved dv ty cs' r) [] [] (rnd_iv i) _ (live_eiv r LV) (rnd_iv_len i) PL ltac:(lia)) as (payload & r3 & CE).
      { change (rq_eiv (moved dv ty cs' r)) with (rq_eiv r). lia. }
      rewrite CE in FW. unfold finish in FW. cbn [app] in FW.
      destruct (step_of s i x _ id r A FW N P) as (s' & nrm & m & ST & NO & CS & Z). exists s'. eexists. split; [exact ST|]. split; [discriminate|]. left. split; [exact T1|].
      rewrite (step_update nrm i x r _ m r3 CS (or_introl eq_refl)) in Z. exists (nrm r3).
      destruct (moved_live E g i x r params ty dv cs' None payload r3 LV OP KT MV CE) as (iv2 & -> & _).
      destruct (NO (set_eiv iv2 (moved dv ty cs' r))) as [Q|Q]; rewrite Q in *; (eexists; split; [exact Z|]; split; [reflexivity|]; split; reflexivity).
    - assert (T2 : cs_tries cs = 1) by lia. cbn [ret_error h_out h_email email_effs] in FW. change (negb (OUT_OF_TRIES =? NO_ERROR)) with true in FW. cbv iota in FW.
      unfold drop_error in FW. cbn [app] in FW. pose proof (ok_step E g S ops s i x _ FW) as ST.
      eexists. eexists. split; [exact ST|]. split; [discriminate|]. right. split; [exact T2|]. split.
      + rewrite ID in ST |- *. eapply (deleted_gone E g S ops _ _ _ _ id A ST). left. reflexivity.
      + eexists. split; [right; left; reflexivity|]. apply error_data_reply. split; [discriminate|]. split; [discriminate|exact FM].
  Qed.

  (** ** The right code *)
  Lemma sealed_opens : forall key iv id n l, aes_laws E -> iv12 iv -> Forall wf_tlv l -> fits (enc_tlvs l) ->
    reply_opens E key id (reply_data E g n (sealed E key iv id (enc_tlvs l))) l.
  Proof.
    intros key iv id n l LA I W F. destruct (sealed_parse E key iv id (enc_tlvs l) LA I F) as (ct & tag & EN & _ & _ & P).
    eexists. eexists. eexists. eexists. exists (enc_tlvs l). unfold reply_data, mk_data. cbn [d_content]. split; [exact P|].
    split; [reflexivity|]. split; [reflexivity|]. split; [reflexivity|]. cbn [t_val]. split; [exact (l_aes_dec_enc E LA _ _ _ _ _ _ EN)|]. apply parse_enc, W.
  Qed.
  Lemma says_nni : forall l ty n, n < 2 ^ 64 -> get ty l = Some (Tlv ty (nni_enc n)) -> says l ty n.
  Proof. intros l ty n B G. eexists. split; [exact G|]. cbn [t_val]. apply nni_dec_enc, B. Qed.
  Lemma new_validity : forall s id r, ca_at E g ops s -> pending ops s id = Some r -> rq_type r = RT_NEW -> exists v, c_validity (rq_cert r) = Some v.
  Proof.
    intros s id r A P RT. destruct (history_of _ _ _ _ _ A) as (tr & H). destruct (has_origin S E g ops tr s id r H P) as (a1 & st & a2 & _ & (i & x & peer & _ & _ & ADM & _) & _).
    destruct (ad_cert _ _ _ _ _ _ _ _ ADM) as [(_ & (nb & na & V & _) & _)|(Q & _)]; [eauto|rewrite RT in Q; discriminate Q].
  Qed.
  Lemma issued_size : forall r c v, name_policy g (c_name (rq_cert r)) -> issue_certificate E g v r = Ok c -> blen (name_wire (c_name (rq_cert r))) < 2 ^ 31 -> c_name c <> [] /\ blen (name_wire (c_name c)) < 2 ^ 32.
  Proof.
    intros r c v (suffix & kid & issuer & version & Q & _) H B. unfold issue_certificate in H. destruct (c_validity (rq_cert r)) as [vv|]; cbn [of_opt bind] in H; [|discriminate]. injection H as <-. cbn [c_name].
    assert (KN : key_name_of (c_name (rq_cert r)) = p_prefix (cfp g) ++ suffix ++ [gc (bs "KEY"); kid]) by (rewrite Q, !app_assoc; apply key_name_of_shape).
    rewrite KN. rewrite Q in B. split; [intros Z; apply app_eq_nil in Z as [_ Z]; discriminate|].
    unfold name_wire in *. assert (L : forall n, blen (enc_tlvs n) <= blen (enc_tlv (name_tlv n))).
    { intros n. unfold enc_tlv, name_tlv. cbn [t_type t_val]. rewrite !blen_app. lia. }
    pose proof (L (p_prefix (cfp g) ++ suffix ++ [gc (bs "KEY"); kid; issuer; version])) as L1.
    pose proof (enc_tlv_len (name_tlv ((p_prefix (cfp g) ++ suffix ++ [gc (bs "KEY"); kid]) ++ [gc (bs "NDNCERT"); version_comp v]))) as L2. cbn [name_tlv t_val] in L2.
    rewrite !enc_tlvs_app in *. cbn [enc_tlvs] in *. rewrite !blen_app in *.
    pose proof (enc_tlv_len (gc (bs "NDNCERT"))) as L3. pose proof (enc_tlv_len (version_comp v)) as L4. cbn [gc version_comp t_val] in L3, L4. pose proof (nni_enc_len v).
    change (blen (bs "NDNCERT")) with 7 in L3. change (blen []) with 0 in *. lia.
  Qed.
  Lemma passed_issues : forall s i x id r params ty ty' dv, aes_laws E -> ca_at E g ops s -> names_request g id x -> pending ops s id = Some r -> rq_type r = RT_NEW ->
    signed_by E x (public_key (rq_cert r)) -> opened E x r params ty dv -> handle_challenge E (cf_chal g) i ty params (set_div dv r) = Some (ret_success ty' (set_div dv r) None) ->
    blen (name_wire (c_name (rq_cert r))) < 2 ^ 31 -> blen (name_wire (p_fwd (cfp g))) < 2 ^ 32 ->
    exists s' es c d l t, step E g ops s (EvInterest i x) = Some (s', es) /\ In (EIssue c) es /\ certifies E g (rq_cert r) c /\ pending ops s' id = None /\
      puts es = [d] /\ d_name d = i_name x /\ data_signed_by E d (cf_sk g) /\ reply_opens E (rq_key r) id d l /\ says l T_Status ST_SUCCESS /\
      get T_IssuedCertName l = Some t /\ t_val t = name_wire (c_name c).
  Proof.
    intros s i x id r params ty ty' dv LA A N P RT SB OP HC B1 B2. destruct (pending_live E g S ops s id r A P) as [ID LV].
    pose proof (pending_good E g S ops s id r A P) as (_ & _ & GD). pose proof (chal_forward E g S ops s i x id r params ty dv A N P SB OP) as FW.
    rewrite HC in FW. cbn [ret_success h_out h_email h_req email_effs] in FW. change (negb (NO_ERROR =? NO_ERROR)) with false in FW. cbv iota in FW.
    destruct (new_validity s id r A P RT) as (v & V).
    assert (IC : exists c, issue_certificate E g (in_version i) r = Ok c) by (unfold issue_certificate; rewrite V; eexists; reflexivity). destruct IC as (c & IC).
    destruct (issued_facts E g (in_version i) r c GD IC) as [CE NP]. destruct (issued_size r c (in_version i) (proj2 (proj2 (proj2 GD))) IC B1) as [NE B3].
    set (r1 := set_cs None (set_ctype ty' (set_status ST_PENDING (set_div dv r)))) in *.
    unfold after_challenge in FW. change (rq_status r1 =? ST_PENDING) with true in FW. change (rq_type r1) with (rq_type r) in FW. rewrite RT in FW. change ((RT_NEW =? RT_NEW) || (RT_NEW =? RT_RENEW)) with true in FW. cbv iota in FW.
    change (issue_certificate E g (in_version i) r1) with (issue_certificate E g (in_version i) r) in FW. rewrite IC in FW.
    set (r2 := set_status ST_SUCCESS (set_cert c r1)) in *. change (rq_id r1) with (rq_id r) in FW.
    destruct (c_name c) as [|n0 n1] eqn:CN; [contradiction|]. rewrite <- CN in *.
    assert (PL : chal_plain r2 (c_name c) (p_fwd (cfp g)) = Ok [Tlv T_Status (nni_enc ST_SUCCESS); Tlv T_IssuedCertName (name_wire (c_name c)); Tlv T_ForwardingHint (name_wire (p_fwd (cfp g)))]).
    { unfold chal_plain. rewrite CN. reflexivity. }
    set (l := [Tlv T_Status (nni_enc ST_SUCCESS); Tlv T_IssuedCertName (name_wire (c_name c)); Tlv T_ForwardingHint (name_wire (p_fwd (cfp g)))]) in *.
    destruct (chal_plain_fits 0%Z r2 (c_name c) (p_fwd (cfp g)) [] l (fun c' Q => ltac:(discriminate)) B3 B2 PL) as [WF FL].
    assert (SZ : blen (enc_tlvs l) < 2 ^ 35).
    { unfold l. cbn [enc_tlvs]. rewrite !blen_app. pose proof (enc_tlv_len (Tlv T_Status (nni_enc ST_SUCCESS))) as L1. pose proof (enc_tlv_len (Tlv T_IssuedCertName (name_wire (c_name c)))) as L2.
      pose proof (enc_tlv_len (Tlv T_ForwardingHint (name_wire (p_fwd (cfp g))))) as L3. cbn [t_val] in *. change (blen (nni_enc ST_SUCCESS)) with 1 in L1. change (blen []) with 0. lia. }
    pose proof (initial_small E g S ops s id r i A P) as CI.
    destruct (chal_encode_fine E r2 (c_name c) (p_fwd (cfp g)) (rnd_iv i) l (live_eiv r LV) (rnd_iv_len i) PL SZ) as (payload & r3 & EN).
    { change (rq_eiv r2) with (rq_eiv r). lia. }
    rewrite EN in FW. unfold finish in FW. cbn [app] in FW. pose proof (ok_step E g S ops s i x _ FW) as ST.
    pose proof EN as EN'. apply chal_encode_ok in EN' as (l' & iv2 & PL' & _ & _ & PQ); [|exact (live_eiv r LV)|apply rnd_iv_len]. rewrite PL in PL'. injection PL' as <-.
    eexists. eexists. exists c, (reply_data E g (i_name x) payload), l. eexists. split; [exact ST|]. split; [left; reflexivity|]. split; [exact CE|].
    split; [eapply (deleted_gone E g S ops _ _ _ _ id A ST); right; left; rewrite ID; reflexivity|]. split; [reflexivity|]. split; [reflexivity|]. split; [reflexivity|].
    split; [rewrite PQ; change (rq_key r2) with (rq_key r); change (rq_id r2) with (rq_id r); rewrite ID; apply sealed_opens; [exact LA|apply iv12_initial; [exact (live_eiv r LV)|apply rnd_iv_len]|exact WF|exact FL]|].
    split; [apply says_nni; reflexivity|]. split; reflexivity.
  Qed.
  Lemma right_code : forall s i x id r cs params ty code, aes_laws E -> ca_at E g ops s -> names_request g id x -> pending ops s id = Some r -> rq_cs r = Some cs -> rq_type r = RT_NEW ->
    signed_by E x (public_key (rq_cert r)) -> acceptable E r x params -> selects params ty -> guesses i params cs ty code -> sec_get (bs "code") (cs_secrets cs) = Some code ->
    blen (name_wire (c_name (rq_cert r))) < 2 ^ 31 -> blen (name_wire (p_fwd (cfp g))) < 2 ^ 32 ->
    exists s' es c d l t, step E g ops s (EvInterest i x) = Some (s', es) /\ In (EIssue c) es /\ certifies E g (rq_cert r) c /\ pending ops s' id = None /\
      puts es = [d] /\ d_name d = i_name x /\ data_signed_by E d (cf_sk g) /\ reply_opens E (rq_key r) id d l /\ says l T_Status ST_SUCCESS /\
      get T_IssuedCertName l = Some t /\ t_val t = name_wire (c_name c).
  Proof.
    intros s i x id r cs params ty code LA A N P C RT SB AC SE GU SC B1 B2. destruct (pending_live E g S ops s id r A P) as [ID LV]. pose proof (live_cs_none r cs LV C) as STA.
    destruct (acceptable_opened E r x params ty LV AC SE) as (dv & OP).
    destruct (code_forward E (cf_chal g) i params (set_div dv r) cs ty code code STA C GU SC) as (life & msg & CL & FM & HC).
    rewrite bytes_eqb_refl in HC. exact (passed_issues s i x id r params ty ty dv LA A N P RT SB OP HC B1 B2).
  Qed.

  (** ** What the replies report *)
  Lemma life_same : forall ty l1 l2, code_life ty l1 -> code_life ty l2 -> l1 = l2.
  Proof. intros ty l1 l2 H1 H2. destruct H1; inversion H2; reflexivity. Qed.
  Lemma reported : forall tr st s r3, aes_laws E -> ca_history E g ops (tr ++ [st]) s -> In (EUpdate r3) (h_effs st) -> answered st ->
    exists i x d l cs, handles st i x /\ names_request g (rq_id r3) x /\ In (EPut d) (h_effs st) /\ reply_opens E (rq_key r3) (rq_id r3) d l /\
      rq_cs r3 = Some cs /\ 1 <= cs_tries cs <= 3 /\ says l T_RemainingTries (cs_tries cs) /\ says l T_RemainingTime (to_u64 (cs_rtime cs)) /\
      (exists params ty, asks E g (rq_id r3) (rq_key r3) (rq_cert r3) st i params ty /\
         forall life, code_life ty life -> (forall r0 cs0, pending ops (h_pre st) (rq_id r3) = Some r0 -> rq_cs r0 = Some cs0 -> cs_time cs0 <= in_t1 i)%Z -> (0 <= cs_rtime cs <= life)%Z) /\
      ((exists r cs', pending ops s (rq_id r3) = Some r /\ rq_cs r = Some cs' /\ cs_tries cs' = cs_tries cs /\ cs_secrets cs' = cs_secrets cs) \/
       restarts (h_ev st) /\ pending ops s (rq_id r3) = None).
  Proof.
    intros tr st s r3 LA H IN AN. apply history_snoc in H as (H & ST & ->). pose proof (history_at _ _ _ _ _ _ H) as A.
    destruct (chal_event E g S ops _ _ _ _ _ A ST IN I) as (i & x & id & r & nrm & m & EV & N & P & IDR & LV & NO & CS & Z).
    pose proof (step_update nrm i x r _ m r3 CS IN) as MM.
    assert (TT : forall tail d r4, cut tail [EPut d; ECallback r4] -> ~ In (EUpdate r3) tail).
    { intros tail d r4 C Q. apply (in_cut _ _ _ C) in Q. destruct Q as [Q|[Q|[]]]; discriminate. }
    remember (h_effs st) as es eqn:ES. destruct CS as [es1 F|info FI NS|code info tail SB PE C|params ty dv cs em payload r4 tail SB OP K MV CE C|params ty dv cs c0 PF RT IC|params ty dv cs c0 tail PF RT IC T|params ty dv cs tail PF RT T]; try discriminate.
    - rewrite Forall_forall in F. destruct (F _ IN).
    - destruct IN as [Q|[]]; discriminate.
    - assert (QQ : r4 = r3).
      { apply in_app_or in IN as [Q|[Q|Q]]; [|congruence|destruct (TT _ _ _ C Q)]. pose proof (emails em) as F. rewrite Forall_forall in F. destruct (F _ Q). }
      subst r4. destruct (moved_reply E (cf_chal g) i x r params ty dv cs em payload r3 LV OP MV CE) as (nonce & iv2 & NN & PQ & EQ & I1 & I2 & _).
      destruct (moved_live E g i x r params ty dv cs em payload r3 LV OP K MV CE) as (_ & _ & _ & _ & TR & _).
      destruct (told_size i (moved dv ty cs r) cs nonce (moves_status _ _ _ _ _ _ _ _ MV) NN) as [WF SZ].
      assert (ID3 : rq_id r3 = id) by (rewrite EQ; exact IDR). assert (K3 : rq_key r3 = rq_key r) by (rewrite EQ; reflexivity). assert (C3 : rq_cs r3 = Some cs) by (rewrite EQ; reflexivity).
      rewrite ID3, K3. exists i, x, (reply_data E g (i_name x) payload), (told_tlvs (moved dv ty cs r) cs nonce), cs.
      split; [apply ev_handles; exact EV|]. split; [exact N|]. split.
      { unfold answered in AN. rewrite <- ES in AN. apply in_or_app. right. right. rewrite puts_app, puts_emails in AN. cbn [app puts flat_map] in AN.
        destruct C as [rest C]. destruct tail as [|e0 tail]; [destruct AN; reflexivity|]. cbn [app] in C. injection C as <- _. left. reflexivity. }
      split; [rewrite PQ, IDR; apply sealed_opens; [exact LA|exact I1|exact WF|unfold fits; lia]|]. split; [exact C3|]. split; [exact TR|].
      split; [apply says_nni; [lia|reflexivity]|]. split; [apply says_nni; [unfold to_u64; lia|reflexivity]|].
      split.
      { exists params, ty. assert (C4 : rq_cert r3 = rq_cert r) by (rewrite EQ; reflexivity). rewrite C4. split; [exact (opened_asks S E g id st i x r params ty dv (proj1 (ev_handles S st i x) EV) N IDR SB OP)|].
        intros life CL CK. destruct MV as [[_ STT]|(_ & _ & cs0 & C0 & RE)].
        - destruct STT; [pose proof (life_same _ _ _ CL life_pin)|pose proof (life_same _ _ _ CL life_email)|inversion CL]; subst life; cbn [cs_rtime]; lia.
        - cbn [set_div rq_cs] in C0. specialize (CK r cs0 P C0). destruct RE as (given & code & lf & (lf' & t & CL' & _ & _ & _ & LT) & CL2 & _ & _ & _ & ->). cbn [cs_rtime].
          rewrite <- (life_same _ _ _ CL CL2). rewrite <- (life_same _ _ _ CL CL') in LT. unfold sec in *. rewrite Z.quot_div_nonneg by lia. split; [apply Z.div_pos; lia|]. apply Z.div_le_upper_bound; lia. }
      destruct Z as [Z|[Z1 Z2]]; [|right; auto]. left. exists (nrm r3). rewrite Z. destruct (NO r3) as [Q|Q]; rewrite Q.
      + exists cs. auto.
      + eexists. split; [reflexivity|]. unfold db_stored. rewrite C3. split; [reflexivity|]. split; reflexivity.
    - destruct IN as [Q|[]]; discriminate.
  Qed.
End Code.

(** ** C23: three comparisons end the request *)
Lemma third_comparison : forall E g S (ops : store_ops S) s tr s' id, ca_at E g ops s -> steps E g ops s tr s' -> no_add id tr ->
  tally (fun st => answered st /\ exists given, compares E g ops id st given) tr 3 -> pending ops s' id = None.
Proof.
  intros E g S ops s tr s' id A H NA T. pose proof (few_comparisons E g S ops s tr s' id 3 A H NA T) as B. pose proof (budget_3 E g S ops s id A) as B3.
  destruct (pending ops s' id) as [r|] eqn:P; [|reflexivity]. exfalso. pose proof (steps_at _ _ _ _ _ _ _ A H) as A'. destruct (pending_live E g S ops s' id r A' P) as [_ LV]. cbn [budget] in B.
  destruct LV as [(_ & _ & Q & _)|(_ & _ & (cs & Q & B1) & _)]; rewrite Q in B; lia.
Qed.
Lemma at_most_three : forall E g S (ops : store_ops S) s tr s' id n, ca_at E g ops s -> steps E g ops s tr s' -> no_add id tr ->
  tally (fun st => answered st /\ exists given, compares E g ops id st given) tr n -> (n <= 3)%nat.
Proof.
  intros E g S ops s tr s' id n A H NA T. pose proof (few_comparisons E g S ops s tr s' id n A H NA T). pose proof (budget_3 E g S ops s id A). lia.
Qed.
Lemma tries_left : forall E g S (ops : store_ops S) s tr s' id r cs n, ca_at E g ops s -> pending ops s id = Some r -> rq_cs r = Some cs -> steps E g ops s tr s' -> no_add id tr ->
  tally (fun st => answered st /\ exists given, compares E g ops id st given) tr n -> N.of_nat n <= cs_tries cs.
Proof.
  intros E g S ops s tr s' id r cs n A P C H NA T. pose proof (few_comparisons E g S ops s tr s' id n A H NA T) as B. rewrite P in B. cbn [budget] in B. rewrite C in B. lia.
Qed.

(** ** C32: only a signed Interest naming a request touches it *)
Lemma mid_untouched : forall E g nrm id S (st : hstep S) r m, mid E g nrm id (h_ev st) (h_effs st) (Some r) m ->
  (exists i x, handles st i x /\ names_request g id x /\ signed_by E x (public_key (rq_cert r))) \/ m = Some r.
Proof.
  intros E g nrm id S st r m M. remember (Some r) as m0 eqn:M0. remember (h_effs st) as es.
  destruct M as [es m F NN|i0 x0 es info FI EV0 N0 C|i0 x0 rt idkey peer c0 tail EV0 RT ID0 ADM CT|i0 x0 r0 es m EV0 N0 IDR CS]; [auto|discriminate|discriminate|].
  injection M0 as ->. apply ev_handles in EV0.
  destruct CS as [es1 F|info FI NS|code info tail SB PE C|params ty dv cs em payload r3 tail SB OP K MV CE C|params ty dv cs c1 PF RT IC|params ty dv cs c1 tail PF RT IC T|params ty dv cs tail PF RT T]; auto;
    left; exists i0, x0; (split; [exact EV0|]); (split; [exact N0|]); try assumption; destruct PF as (Q & _); exact Q.
Qed.
Lemma untouched : forall E g S (ops : store_ops S) tr st s id r, ca_history E g ops (tr ++ [st]) s -> pending ops (h_pre st) id = Some r ->
  (exists i x, handles st i x /\ names_request g id x /\ signed_by E x (public_key (rq_cert r))) \/ pending ops s id = Some r \/
  ((exists i x n key, h_ev st = EvCrash i x n key) \/ exists key, h_ev st = EvRestart key) /\ pending ops s id = None.
Proof.
  intros E g S ops tr st s id r H P. apply history_snoc in H as (H & ST & ->). pose proof (history_at _ _ _ _ _ _ H) as A.
  destruct (at_id_step S E g ops _ _ _ _ A ST) as (nrm & NO & IDS). destruct (IDS id) as [m1 M Z]. rewrite P in M.
  destruct (mid_untouched _ _ _ _ _ _ _ _ M) as [Q| ->]; [auto|]. right. destruct Z as [Z|[Z1 Z]]; [auto|]. right. split; [|exact Z].
  destruct (h_ev st); try destruct Z1; eauto 6.
Qed.
Lemma untouched_db : forall E g tr (st : hstep db) s id r, ca_history E g (db_ops E) (tr ++ [st]) s -> pending (db_ops E) (h_pre st) id = Some r ->
  (exists i x, handles st i x /\ names_request g id x /\ signed_by E x (public_key (rq_cert r))) \/ pending (db_ops E) s id = Some r.
Proof.
  intros E g tr st s id r H P. apply history_snoc in H as (H & ST & ->). pose proof (history_at _ _ _ _ _ _ H) as A.
  destruct (ca_at_inv E g db (db_ops E) _ A) as (inv & nrm & SL & I). pose proof (at_codec _ _ _ _ A) as LC. pose proof (at_prefix _ _ _ _ A) as NF.
  destruct (h_ev st) as [i x|i x n key|key|i] eqn:EV; cbn [step] in ST.
  - destruct (on_interest E g (db_ops E) (h_pre st) i x) as [full o] eqn:O.
    assert (Q : o <> UB /\ h_post st = apply_effs (db_ops E) full (h_pre st) /\ h_effs st = full) by (destruct o; try discriminate; (split; [discriminate|]); injection ST as <- <-; auto).
    destruct Q as (NU & Q1 & Q2). destruct (interest_step E g (db_ops E) inv nrm SL LC NF _ (h_ev st) i x full full o I ltac:(rewrite EV; reflexivity) O NU (cut_refl _)) as [_ M].
    rewrite Q1. rewrite <- Q2 in M. rewrite <- Q2. specialize (M id). change (ca_get (db_ops E) (h_pre st) id) with (pending (db_ops E) (h_pre st) id) in M. rewrite P in M. exact (mid_untouched _ _ _ _ _ _ _ _ M).
  - destruct (on_interest E g (db_ops E) (h_pre st) i x) as [full o] eqn:O.
    assert (Q : o <> UB /\ h_post st = restart (db_ops E) key (apply_effs (db_ops E) (firstn n full) (h_pre st)) /\ h_effs st = firstn n full) by (destruct o; try discriminate; (split; [discriminate|]); injection ST as <- <-; auto).
    destruct Q as (NU & Q1 & Q2). assert (C : cut (firstn n full) full) by (exists (skipn n full); symmetry; apply firstn_skipn).
    destruct (interest_step E g (db_ops E) inv nrm SL LC NF _ (h_ev st) i x _ full o I ltac:(rewrite EV; reflexivity) O NU C) as [_ M].
    rewrite Q1. rewrite <- Q2 in M. rewrite <- Q2. specialize (M id). change (ca_get (db_ops E) (h_pre st) id) with (pending (db_ops E) (h_pre st) id) in M. rewrite P in M.
    exact (mid_untouched _ _ _ _ _ _ _ _ M).
  - injection ST as <- _. right. exact P.
  - right. rewrite <- P. destruct (on_get_profile E g (ca_prof (h_pre st)) i) as [es0 o] eqn:O. unfold on_get_profile in O.
    destruct (profile_data E g (ca_prof (h_pre st)) (in_version i)) as [d| | |]; injection O as <- <-; try discriminate; injection ST as <- _;
      destruct (ca_prof (h_pre st)); reflexivity.
Qed.

(** ** C22, C24, C27 as stated *)
Lemma after_passing : forall E g S (ops : store_ops S) tr st s c, ca_history E g ops (tr ++ [st]) s -> In (EIssue c) (h_effs st) ->
  exists id key c0 a1 new a2 start a3 i0 params0 ty0 r cs em i params ty,
    tr = a1 ++ new :: a2 ++ start :: a3 /\
    accepts E g id RT_NEW new key c0 /\ no_add id (a2 ++ start :: a3) /\
    asks E g id key c0 start i0 params0 ty0 /\ starts E (cf_chal g) i0 params0 r ty0 cs em /\ rq_cert r = c0 /\ (forall cmd, em = Some cmd -> In (EEmail cmd) (h_effs start)) /\
    asks E g id key c0 st i params ty /\ earned E (cf_chal g) i0 params0 ty0 params ty /\
    certifies E g c0 c.
Proof.
  intros E g S ops tr st s c H IN. destruct (issued_earned E g S ops tr st s c H IN) as (id & key & c0 & a1 & new & a2 & start & a3 & i0 & p0 & ty0 & i & p & ty & Q & AC & NA & (AK & r & cs & em & STT & RC & EM) & AK2 & EA & CE & _).
  exists id, key, c0, a1, new, a2, start, a3, i0, p0, ty0, r, cs, em, i, p, ty. repeat (split; [assumption|]). assumption.
Qed.
Lemma code_age : forall E g S (ops : store_ops S) tr st s c, ca_history E g ops (tr ++ [st]) s -> In (EIssue c) (h_effs st) ->
  exists id key c0 a1 start a3 i0 params0 ty0 r cs em i params ty k,
    tr = a1 ++ start :: a3 /\ asks E g id key c0 start i0 params0 ty0 /\ starts E (cf_chal g) i0 params0 r ty0 cs em /\
    asks E g id key c0 st i params ty /\ earned E (cf_chal g) i0 params0 ty0 params ty /\ tally (renews id) a3 k /\ (k <= 2)%nat /\
    forall d L, ty <> bs "possession" -> paced d tr -> lives_within E g id key c0 L (a3 ++ [st]) ->
      (in_t1 i - in_t2 i0 < Z.of_nat (k + 1) * sec L + Z.of_nat k * d)%Z.
Proof.
  intros E g S ops tr st s c H IN. destruct (issued_earned E g S ops tr st s c H IN) as (id & key & c0 & a1 & new & a2 & start & a3 & i0 & p0 & ty0 & i & p & ty & Q & AC & NA & (AK & r & cs & em & STT & RC & EM) & AK2 & EA & CE & NP & k & TL & KB & TM).
  exists id, key, c0, (a1 ++ new :: a2), start, a3, i0, p0, ty0, r, cs, em, i, p, ty, k. split; [rewrite Q, <- app_assoc; reflexivity|]. repeat (split; [assumption|]). intros d L NE. exact (TM NE d L).
Qed.
Lemma fresh_when_accepted : forall E g S (ops : store_ops S) tr st s c, ca_history E g ops (tr ++ [st]) s -> In (EIssue c) (h_effs st) ->
  exists id key c0 a1 new a2 i x nb na, tr = a1 ++ new :: a2 /\ accepts E g id RT_NEW new key c0 /\ handles new i x /\ certifies E g c0 c /\
    c_validity c = Some (nb, na) /\ (in_t2 i - sec 120 < na)%Z.
Proof.
  intros E g S ops tr st s c H IN. destruct (issued_says E g S ops tr st s c H IN) as (id & key & c0 & a1 & new & a2 & i & x & nb & na & Q & AC & _ & HD & CE & _ & V & P1 & P2 & P3).
  exists id, key, c0, a1, new, a2, i, x, nb, na. repeat (split; [assumption|]). lia.
Qed.

(** ** A code that is waited for was mailed *)
Lemma was_mailed : forall E g S (ops : store_ops S) tr s id r cs, ca_history E g ops tr s -> pending ops s id = Some r -> rq_cs r = Some cs ->
  exists a1 start a2 i params ty, tr = a1 ++ start :: a2 /\ no_add id a2 /\ asks E g id (rq_key r) (rq_cert r) start i params ty /\
    (ty = bs "email" -> exists code addr, gen_code (in_words i) = Ok code /\ cs_secrets cs = [(bs "code", code)] /\ get T_ParameterValue params = Some addr /\
       In (EEmail (email_command E (cc_script (cf_chal g)) (t_val addr) code r)) (h_effs start)).
Proof.
  intros E g S ops tr s id r cs H P C. pose proof (history_at _ _ _ _ _ _ H) as A.
  destruct (has_origin S E g ops tr s id r H P) as (a1 & new & a2 & -> & AC & NA & CSO).
  destruct (CSO cs C) as (b1 & st1 & b2 & i0 & p0 & ty0 & cs0 & -> & (AK & r1 & em & STT & RC & RP & EM) & SE & _).
  exists (a1 ++ new :: b1), st1, b2, i0, p0, ty0. split; [rewrite <- app_assoc; reflexivity|].
  split; [apply Forall_app in NA as [_ NA]; inversion NA; assumption|]. split; [exact AK|]. intros TY.
  destruct STT as [code G|code addr G GA|c CI]; [discriminate TY| |discriminate TY].
  exists code, addr. split; [exact G|]. split; [exact SE|]. split; [exact GA|].
  assert (Q : email_command E (cc_script (cf_chal g)) (t_val addr) code r = email_command E (cc_script (cf_chal g)) (t_val addr) code r1).
  { unfold email_command. rewrite RC, RP. destruct (pending_good E g S ops _ id r A P) as (_ & _ & _ & RQ & _). rewrite RQ. reflexivity. }
  rewrite Q. apply EM. reflexivity.
Qed.
