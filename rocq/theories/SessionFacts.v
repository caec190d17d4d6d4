(** Requester and CA together. *)
From Verif Require Import RequesterFacts OutcomeFacts EmailFacts.
From Verif Require Export Spec_Requester.
From Coq Require Import Lia.
Local Open Scope N_scope.

(** ** The session key *)
Lemma request_id_len : forall E key n, hash_laws E -> length (request_id_of E key n) = 8%nat.
Proof. intros E key n L. unfold request_id_of. rewrite firstn_length, (l_hmac_len E L). reflexivity. Qed.

(** The content of a NEW reply reports no error. *)
Lemma no_error : forall b els, parse b = Some els -> count T_ErrorCode els = 0%nat -> fst (err_decode b) = NO_ERROR.
Proof.
  intros b els P C. destruct (N.eq_dec (fst (err_decode b)) NO_ERROR) as [Q|Q]; [exact Q|]. exfalso.
  destruct (decoded_error b _ eq_refl Q) as (els' & t & P' & C' & _). rewrite P in P'. injection P' as <-. congruence.
Qed.
Lemma check_signed : forall E p c sk n content fresh final els, sig_laws E -> p_cert p = Some c -> public_key c = o_pub E sk ->
  parse content = Some els -> count T_ErrorCode els = 0%nat ->
  check_reply E p (Data n content fresh final (o_sign E sk (MData n content fresh final))) = Ok tt.
Proof.
  intros E p c sk n content fresh final els LS PC PK P C. unfold check_reply, verify_data, data_msg. rewrite PC, PK. cbn [d_name d_content d_fresh d_final d_sig].
  rewrite (l_sign_verify E LS). unfold process_if_error. cbn [d_content]. rewrite (no_error _ _ P C). reflexivity.
Qed.
Lemma reply_parse : forall ecdh salt id chals, fits ecdh -> length salt = 32%nat -> length id = 8%nat -> Forall fits chals ->
  exists els, parse (reply_encode ecdh salt id chals) = Some els /\ count T_ErrorCode els = 0%nat.
Proof.
  intros ecdh salt id chals F1 L1 L2 F2. eexists. split.
  - unfold reply_encode. apply parse_enc. apply Forall_app. split.
    + constructor; [wft; exact F1|]. constructor; [wft; apply fits_short; rewrite L1; apply Nat.leb_le; vm_compute; reflexivity|].
      constructor; [wft; apply fits_short; rewrite L2; apply Nat.leb_le; vm_compute; reflexivity|constructor].
    + apply Forall_map. eapply Forall_impl; [|exact F2]. intros k Fk. wft. exact Fk.
  - unfold count. rewrite filter_app, app_length. change (length (filter _ [Tlv T_EcdhPub ecdh; Tlv T_Salt salt; Tlv T_RequestId id])) with 0%nat. cbn [plus]. clear F2.
    induction chals as [|c l IH]; [reflexivity|]. exact IH.
Qed.
Lemma new_answered : forall E g i x id s ri c, ecdh_laws E -> hash_laws E -> sig_laws E -> Forall fits (p_challenges (cfp g)) ->
  p_cert (rs_profile s) = Some c -> public_key c = o_pub E (cf_sk g) -> length (rs_id s) = 8%nat -> length (ri_salt0 ri) = 32%nat -> length id = 8%nat ->
  on_new_response E s ri (new_reply E g i x id) = (Ok (p_challenges (cfp g)), upd_key (session_key E i id (o_ecdh_pub E (rs_ecdh s))) (upd_id id s)).
Proof.
  intros E g i x id s ri c LE LH LS F PC PK L1 L2 L3.
  assert (FE : fits (o_ecdh_pub E (in_sk i))) by (pose proof (l_ecdh_pub_len E LE (in_sk i)); unfold fits; lia).
  assert (LSA : length (rnd_salt i) = 32%nat) by apply be_enc_length.
  destruct (reply_parse (o_ecdh_pub E (in_sk i)) (rnd_salt i) id _ FE LSA L3 F) as (els & P & C).
  unfold on_new_response. assert (CR : check_reply E (rs_profile s) (new_reply E g i x id) = Ok tt) by (eapply check_signed; eassumption). rewrite CR.
  rewrite (new_reply_lists E g i x id (ri_salt0 ri) (rs_id s) FE F L3 L2 L1). cbn [rp_id rp_ecdh rp_salt rp_challenges].
  unfold derive_secret. destruct (o_ecdh E (rs_ecdh s) (o_ecdh_pub E (in_sk i))) as [rc sec] eqn:EC.
  pose proof (l_ecdh_ok E LE (rs_ecdh s) (in_sk i)) as OK. rewrite EC in OK. cbn [fst] in OK. subst rc. change (1 =? 0)%Z with false. cbv iota. cbn [bind].
  unfold hkdf. destruct (o_hkdf E sec (rnd_salt i) id) as [rc k] eqn:HK. pose proof (l_hkdf_ok E LH sec (rnd_salt i) id) as OK. rewrite HK in OK. cbn [fst] in OK. subst rc. change (1 =? 0)%Z with false. cbv iota.
  unfold session_key. rewrite (l_ecdh_sym E LE (in_sk i) (rs_ecdh s)), EC. cbn [snd]. rewrite HK. reflexivity.
Qed.
Lemma keys_agree : forall E g S (ops : store_ops S) ca i rt x c s ri cc, ecdh_laws E -> hash_laws E -> sig_laws E -> ca_at E g ops ca -> suffix_limit_sane g ->
  Forall fits (p_challenges (cfp g)) -> rt = RT_NEW \/ rt = RT_REVOKE -> addressed g (verb_of rt) (i_name x) ->
  let id := request_id_of E (ca_idkey ca) (c_name c) in
  admissible E g i rt id x (o_ecdh_pub E (rs_ecdh s)) c -> pending ops ca id = None ->
  p_cert (rs_profile s) = Some cc -> public_key cc = o_pub E (cf_sk g) -> length (rs_id s) = 8%nat -> length (ri_salt0 ri) = 32%nat ->
  exists ca' es d r s', step E g ops ca (EvInterest i x) = Some (ca', es) /\ puts es = [d] /\ pending ops ca' id = Some r /\
    on_new_response E s ri d = (Ok (p_challenges (cfp g)), s') /\ rs_key s' = rq_key r /\ rs_id s' = rq_id r /\ rq_id r = id /\ rq_cert r = c /\ rq_type r = rt.
Proof.
  intros E g S ops ca i rt x c s ri cc LE LH LS A SANE F RT AD id ADM P PC PK L1 L2.
  destruct (new_accepted E g S ops ca i rt x _ c A SANE RT AD ADM P) as (ca' & ST & P' & _). fold id in ST, P'.
  eexists. eexists. eexists. eexists. eexists. split; [exact ST|]. split; [reflexivity|]. split; [exact P'|].
  split; [apply (new_answered E g i x id s ri cc); auto; apply request_id_len, LH|]. repeat split.
Qed.

(** ** The invariant of a session *)
Section Linked.
  Context {E : env} {g : ca_cfg} {S : Type} {ops : store_ops S} {rq : N}.
  Definition streams (ph : option (bytes * nat * Z)) (ctype : bytes) (r : request) (s : rstate) : Prop :=
    match ph with
    | None => rs_eiv s = [] /\ rq_status r = ST_BEFORE /\ rs_status s = ST_BEFORE /\ rs_cstatus s = []
    | Some (code, k, t) => iv12 (rs_eiv s) /\ rq_div r = rs_eiv s /\ rand_part (rs_eiv s) <> rand_part (rq_eiv r) /\
        ctr_part (rs_eiv s) <= 2 ^ 28 * N.of_nat (k + 1) /\ (k <= 2)%nat /\ rs_status s = ST_CHALLENGE /\ rs_ctype s = ctype /\ (0 <= t)%Z /\
        exists cs, rq_cs r = Some cs /\ rs_cstatus s = cs_status cs /\ wants_code cs /\ cs_secrets cs = [(bs "code", code)] /\
          cs_tries cs = 3 - N.of_nat k /\ (cs_time cs = t \/ cs_time cs = trunc_us t)
    end.
  Record linked (ctype : bytes) (id sk : bytes) (creq : cert) (ph : option (bytes * nat * Z)) (ca : ca_state S) (s : rstate) : Prop := {
    lk_at : ca_at E g ops ca;
    lk_len : length id = 8%nat;
    lk_pk : public_key creq = o_pub E sk;
    lk_size : blen (name_wire (c_name creq)) < 2 ^ 31;
    lk_id : rs_id s = id;
    lk_keypair : exists kn, rs_keypair s = Some (kn, sk);
    lk_prefix : p_prefix (rs_profile s) = p_prefix (cfp g);
    lk_cert : exists c, p_cert (rs_profile s) = Some c /\ public_key c = o_pub E (cf_sk g);
    lk_req : exists r, pending ops ca id = Some r /\ rq_cert r = creq /\ rq_type r = rq /\ rq_key r = rs_key s /\
      rs_div s = rq_eiv r /\ streams ph ctype r s
  }.
End Linked.
Arguments linked E g {S} ops rq.

(** Sending: the CA can open what the requester sends. *)
Lemma gen_challenge_eq : forall E s ri params els kn sk, step_payload (rs_ctype s) (rs_status s) (rs_cstatus s) params els ->
  rs_keypair s = Some (kn, sk) -> iv_sound (rs_eiv s) -> small_payload (enc_tlvs els) -> has_room (rs_eiv s) (enc_tlvs els) ->
  let iv := initial_iv (rs_eiv s) (be_enc 8 (ri_iv ri)) in
  exists iv2, gen_challenge E s ri params = (Ok (signed_interest E sk (p_prefix (rs_profile s) ++ [r_CA; gc (bs "CHALLENGE"); gc (rs_id s)]) (sealed E (rs_key s) iv (rs_id s) (enc_tlvs els))), upd_eiv iv2 s) /\
    update_iv iv (blen (enc_tlvs els)) = Ok iv2 /\ iv12 iv2 /\ rand_part iv2 = rand_part iv /\ ctr_part iv2 = used (rs_eiv s) + blocks16 (enc_tlvs els).
Proof.
  intros E s ri params els kn sk P KP I S H iv. apply step_payload_iff in P. pose proof (be_enc_length 8 (ri_iv ri)) as RL.
  destruct (send_ok E (rs_key s) (enc_tlvs els) (rs_id s) (rs_eiv s) (be_enc 8 (ri_iv ri)) I RL S H) as (iv2 & EN & U & A & B & C).
  exists iv2. split; [|auto]. unfold gen_challenge. rewrite P, EN, KP. destruct (rs_ctype s) as [|a l]; [discriminate P|reflexivity].
Qed.
Lemma sent_opened : forall E sk r iv id n els ctype iv2, aes_laws E -> iv12 iv -> rq_id r = id ->
  (rq_eiv r = [] \/ iv12 (rq_eiv r) /\ rand_part iv <> rand_part (rq_eiv r)) ->
  (rq_div r = [] \/ rq_div r = iv) -> Forall wf_tlv els -> els <> [] -> small_payload (enc_tlvs els) -> selects els ctype -> update_iv iv (blen (enc_tlvs els)) = Ok iv2 ->
  opened E (signed_interest E sk n (sealed E (rq_key r) iv id (enc_tlvs els))) r els ctype iv2.
Proof.
  intros E sk r iv id n els ctype iv2 LA I ID F1 F2 W NE SM SE U. exists (enc_tlvs els). unfold params_of, signed_interest. cbn [i_params].
  destruct (sealed_view E (rq_key r) iv id (enc_tlvs els) LA I (small_fits _ SM)) as (ct & tag & EN & LN & V).
  assert (FR : fresh_for iv (rq_div r) (rq_eiv r)).
  { unfold iv12 in *. split; [destruct F1 as [F1|[F0 F1]]; [auto|right; split; [lia|exact F1]]|]. destruct F2 as [F2|F2]; [auto|right]. rewrite F2. split; [lia|]. split; [lia|reflexivity]. }
  rewrite ID. rewrite (decode_accepts E (rq_key r) _ id _ _ iv tag ct (enc_tlvs els) V FR); [|exact (l_aes_dec_enc E LA _ _ _ _ _ _ EN)|symmetry; exact LN]. rewrite U.
  split; [reflexivity|]. split; [|split; [apply parse_enc, W|exact SE]].
  destruct els as [|e els]; [contradiction|]. cbn [enc_tlvs]. intros Z. apply app_eq_nil in Z as [Z _]. revert Z. apply enc_tlv_nonempty.
Qed.

(** ** Opening a request *)
Lemma name_wire_app : forall n l, blen (name_wire (n ++ l)) <= blen (name_wire n) + blen (enc_tlvs l) + 18.
Proof.
  intros n l. unfold name_wire. pose proof (enc_tlv_len (name_tlv (n ++ l))) as L. cbn [name_tlv t_val] in L. rewrite enc_tlvs_app, blen_app in L.
  assert (Q : blen (enc_tlvs n) <= blen (enc_tlv (name_tlv n))) by (unfold enc_tlv, name_tlv; cbn [t_type t_val]; rewrite !blen_app; lia). lia.
Qed.
Lemma request_admissible : forall E g s ri i kn sk nb na id, codec_laws E -> ecdh_laws E -> hash_laws E -> sig_laws E -> applies E g s ri i kn sk nb na ->
  exists x identity, gen_new E s ri kn sk nb na = (Ok (Some x), upd_keypair (Some (kn, sk)) (upd_identity identity s)) /\ addressed g VNew (i_name x) /\
    admissible E g i RT_NEW id x (o_ecdh_pub E (rs_ecdh s)) (cert_request E sk ri kn nb na) /\ blen (name_wire (c_name (cert_request E sk ri kn nb na))) < 2 ^ 31.
Proof.
  intros E g s ri i kn sk nb na id LC LE LH LS [(p & ecdh & id0 & FR & L0) PF _ (suffix & kid & KN & NS & LIM) WI (nb' & na' & MV & PP & B) (W1 & W2 & W3 & W4)].
  assert (FE : fits (o_ecdh_pub E (rs_ecdh s))) by (pose proof (l_ecdh_pub_len E LE (rs_ecdh s)); unfold fits; lia).
  assert (KU : key_under (p_prefix (rs_profile s)) kn).
  { rewrite PF, KN. split; [eexists; reflexivity|]. exists (p_prefix (cfp g) ++ suffix), kid. apply app_assoc. }
  assert (B1 : (0 <= nb' < 2 ^ 63)%Z /\ (0 <= na' < 2 ^ 63)%Z) by (destruct PP as (_ & _ & Q); lia). destruct B1 as [B1 B2].
  assert (KN' : kn = (p_prefix (cfp g) ++ suffix) ++ [gc (bs "KEY"); kid]) by (rewrite KN; apply app_assoc).
  pose proof (gen_new_eq E s ri kn sk nb na _ kid KU KN') as GN. rewrite GN. eexists. eexists. split; [reflexivity|].
  assert (CK : cert_ok (cert_request E sk ri kn nb na) = true) by (apply request_ok; [exact LS|eexists; eexists; exact KN']).
  assert (WF : wf_cert (cert_request E sk ri kn nb na)) by (eapply request_wf; eassumption).
  split.
  { rewrite PF. unfold signed_interest. cbn [i_name]. eexists. rewrite <- app_assoc. reflexivity. }
  split; [constructor|].
  - exact WI.
  - apply carries_encoded; auto.
  - apply (l_ecdh_pub_nonempty E LE).
  - rewrite (l_ecdh_ok E LE). discriminate.
  - unfold cert_request. cbn [c_name]. exists suffix, kid, (gc (bs "cert-request")), (version_comp (ri_version ri)). split; [rewrite KN, <- !app_assoc; reflexivity|]. auto.
  - left. split; [reflexivity|]. split; [exists nb', na'; split; [unfold cert_request; cbn [c_validity]; rewrite MV; reflexivity|exact PP]|].
    split; [unfold cert_signed_by, cert_request; cbn; apply (l_sign_verify E LS)|]. unfold cert_request at 1. cbn [public_key c_content]. apply signed_signed, LS.
  - unfold key_derivable. rewrite (l_hkdf_ok E LH). discriminate.
  - unfold cert_request. cbn [c_name]. pose proof (name_wire_app kn [gc (bs "cert-request"); version_comp (ri_version ri)]) as L. cbn [enc_tlvs] in L. rewrite !blen_app in L.
    pose proof (enc_tlv_len (gc (bs "cert-request"))) as L3. pose proof (enc_tlv_len (version_comp (ri_version ri))) as L4. cbn [gc version_comp t_val] in L3, L4. pose proof (nni_enc_len (ri_version ri)).
    change (blen (bs "cert-request")) with 12 in L3. change (blen []) with 0 in *. lia.
Qed.
Lemma opening_linked : forall E g S (ops : store_ops S) ctype ca0 s0 ri rj i kn sk nb na, env_laws E -> config_fits g -> ca_at E g ops ca0 -> applies E g s0 ri i kn sk nb na ->
  let creq := cert_request E sk ri kn nb na in let id := request_id_of E (ca_idkey ca0) (c_name creq) in
  pending ops ca0 id = None -> length (ri_salt0 rj) = 32%nat ->
  exists ca es s, opening E g ops ca0 s0 ri rj i kn sk nb na = Some (ca, es, s, p_challenges (cfp g)) /\ linked E g ops RT_NEW ctype id sk creq None ca s.
Proof.
  intros E g S ops ctype ca0 s0 ri rj i kn sk nb na L (SANE & FC & _) A AP creq id P L2.
  destruct L as [LA LE LH LS LC].
  destruct (request_admissible E g s0 ri i kn sk nb na id LC LE LH LS AP) as (x & identity & GN & AD & ADM & SZ). fold creq in ADM, SZ.
  destruct (new_accepted E g S ops ca0 i RT_NEW x _ creq A SANE (or_introl eq_refl) AD ADM P) as (ca' & ST & P' & _). fold id in ST, P'.
  destruct (ap_fresh _ _ _ _ _ _ _ _ _ AP) as (p & ecdh & id0 & FR & L0). destruct (ap_cert _ _ _ _ _ _ _ _ _ AP) as (cc & PC & PK).
  pose proof (new_answered E g i x id (upd_keypair (Some (kn, sk)) (upd_identity identity s0)) rj cc LE LH LS FC PC PK ltac:(rewrite FR; exact L0) L2 (request_id_len _ _ _ LH)) as NR.
  eexists. eexists. eexists. split.
  - unfold opening. rewrite GN, ST. cbn [puts flat_map app]. rewrite NR. reflexivity.
  - constructor.
    + exact (ca_at_step _ _ _ _ _ _ _ _ A ST).
    + apply request_id_len, LH.
    + reflexivity.
    + exact SZ.
    + reflexivity.
    + exists kn. reflexivity.
    + exact (ap_prefix _ _ _ _ _ _ _ _ _ AP).
    + exists cc. auto.
    + exists (created E g i RT_NEW id (o_ecdh_pub E (rs_ecdh s0)) creq). split; [exact P'|]. subst s0. repeat split.
Qed.

(** ** What happens in between *)
Lemma history_push : forall S E g (ops : store_ops S) tr st, ca_history E g ops tr (h_pre st) -> step E g ops (h_pre st) (h_ev st) = Some (h_post st, h_effs st) ->
  ca_history E g ops (tr ++ [st]) (h_post st).
Proof.
  intros S E g ops tr [s ev es s'] [LC NF B (key & H)] ST. constructor; [exact LC|exact NF|exact B|]. exists key. apply steps_app; exists s; split; [exact H|].
  econstructor; [exact ST|constructor].
Qed.
Lemma quiet_step : forall E g S (ops : store_ops S) st id r, ca_at E g ops (h_pre st) -> step E g ops (h_pre st) (h_ev st) = Some (h_post st, h_effs st) ->
  pending ops (h_pre st) id = Some r -> (forall i x, handles st i x -> names_request g id x -> ~ signed_by E x (public_key (rq_cert r))) ->
  (restarts (h_ev st) -> durable E S ops) -> pending ops (h_post st) id = Some r.
Proof.
  intros E g S ops st id r A ST P Q D. destruct (history_of _ _ _ _ _ A) as (tr & H).
  assert (H' : ca_history E g ops (tr ++ [st]) (h_post st)) by (apply history_push; assumption).
  destruct (untouched E g S ops tr st _ id r H' P) as [(i & x & H1 & H2 & H3)|[U|[U _]]]; [destruct (Q i x H1 H2 H3)|exact U|].
  assert (RS : restarts (h_ev st)) by (destruct U as [(i & x & n & key & ->)|(key & ->)]; exact I). specialize (D RS). clear RS U ST A. destruct D.
  destruct (untouched_db E g tr st _ id r H' P) as [(i & x & H1 & H2 & H3)|U]; [destruct (Q i x H1 H2 H3)|exact U].
Qed.
Lemma quiet_linked : forall E g S (ops : store_ops S) rq ctype id sk creq ph ca s ca', linked E g ops rq ctype id sk creq ph ca s -> quiet E g ops id (o_pub E sk) ca ca' ->
  linked E g ops rq ctype id sk creq ph ca' s.
Proof.
  intros E g S ops rq ctype id sk creq ph ca s ca' [A L PK SZ ID KP PF CC (r & P & CR & R)] (tr & ST & F).
  rewrite <- PK, <- CR in F. assert (Z : ca_at E g ops ca' /\ pending ops ca' id = Some r).
  { clear - A P ST F. induction ST as [s|s ev es s1 tr s2 ST ST' IH]; [auto|]. inversion F as [|st tr' [F1 F2] F3]; subst.
    apply IH; [exact (ca_at_step _ _ _ _ _ _ _ _ A ST)|exact (quiet_step E g S ops (HStep s ev es s1) id r A ST P F1 F2)|exact F3]. }
  destruct Z as [A' P']. constructor; auto. exists r. auto.
Qed.

(** ** One exchange *)
(** The CA's side of an exchange that moves the challenge on. *)
Lemma move_step : forall E g S (ops : store_ops S) ca i x id r els ty dv cs em h, ca_at E g ops ca -> names_request g id x -> pending ops ca id = Some r ->
  signed_by E x (public_key (rq_cert r)) -> opened E x r els ty dv -> moves E (cf_chal g) i els (set_div dv r) ty cs em ->
  handle_challenge E (cf_chal g) i ty els (set_div dv r) = Some h -> (exists info, h_out h = Ok (NO_ERROR, info)) -> h_req h = moved dv ty cs r -> h_email h = em ->
  exists ca' payload r3 nrm, step E g ops ca (EvInterest i x) = Some (ca', email_effs em ++ [EUpdate r3; EPut (reply_data E g (i_name x) payload); ECallback r3]) /\
    nrm_ok nrm /\ pending ops ca' id = Some (nrm r3) /\ chal_encode E (moved dv ty cs r) [] [] (rnd_iv i) = (Ok payload, r3).
Proof.
  intros E g S ops ca i x id r els ty dv cs em h A N P SB OP MV HC (info & HO) HR HE.
  destruct (pending_live E g S ops ca id r A P) as [ID LV].
  pose proof (chal_forward E g S ops ca i x id r els ty dv A N P SB OP) as FW. rewrite HC, HO, HR, HE in FW.
  change (negb (NO_ERROR =? NO_ERROR)) with false in FW. cbv iota in FW.
  unfold after_challenge in FW. change (rq_status (moved dv ty cs r) =? ST_PENDING) with false in FW. cbv iota in FW.
  destruct (moved_plain E (cf_chal g) i els r dv ty cs em MV) as (nonce & NN & PL).
  destruct (told_size i (moved dv ty cs r) cs nonce (moves_status _ _ _ _ _ _ _ _ MV) NN) as [_ SZ].
  pose proof (initial_small E g S ops ca id r i A P) as CI.
  destruct (chal_encode_fine E (moved dv ty cs r) [] [] (rnd_iv i) _ (live_eiv r LV) (rnd_iv_len i) PL ltac:(lia)) as (payload & r3 & CE).
  { change (rq_eiv (moved dv ty cs r)) with (rq_eiv r). lia. }
  rewrite CE in FW. unfold finish in FW. rewrite <- app_assoc in FW. cbn [app] in FW.
  destruct (step_of ca i x _ id r A FW N P) as (s' & nrm & m & ST & NO & CS & Z).
  assert (Z' : pending ops s' id = Some (nrm r3)).
  { rewrite Z. apply (step_update nrm i x r _ m r3 CS). apply in_or_app. right. left. reflexivity. }
  exists s', payload, r3, nrm. split; [exact ST|]. auto.
Qed.
(** The requester's side. *)
Lemma sealed_no_error : forall E key iv ad p, aes_laws E -> iv12 iv -> fits p -> exists els, parse (sealed E key iv ad p) = Some els /\ count T_ErrorCode els = 0%nat.
Proof.
  intros E key iv ad p LA I F. destruct (sealed_parse E key iv ad p LA I F) as (ct & tag & _ & _ & _ & P). eexists. split; [exact P|reflexivity].
Qed.
Lemma reply_read : forall E g n r issued fwd i rj nonce content r3 s c, aes_laws E -> sig_laws E -> (rq_eiv r = [] \/ iv12 (rq_eiv r)) ->
  (forall cs, rq_cs r = Some cs -> cs_ok (ri_now rj) nonce cs) -> rq_status r <= 6 -> name_fits issued -> name_fits fwd -> blen (name_wire issued) < 2 ^ 32 -> blen (name_wire fwd) < 2 ^ 32 ->
  chal_encode E r issued fwd (rnd_iv i) = (Ok content, r3) ->
  p_cert (rs_profile s) = Some c -> public_key c = o_pub E (cf_sk g) -> rs_key s = rq_key r -> rs_id s = rq_id r -> rs_div s = rq_eiv r ->
  iv12 (rs_eiv s) -> rand_part (rs_eiv s) <> rand_part (initial_iv (rq_eiv r) (rnd_iv i)) ->
  exists s', on_challenge_response E s rj (reply_data E g n content) = (Ok tt, s') /\ told (ri_now rj) r issued fwd nonce s s' /\ same_session s s' /\ rs_div s' = rq_eiv r3.
Proof.
  intros E g n r issued fwd i rj nonce content r3 s c LA LS IV CS ST N1 N2 B1 B2 CE PC PK K ID DV EV RN.
  assert (SY : in_sync r (rnd_iv i) s).
  { split; [exact K|]. split; [exact ID|]. split; [apply rnd_iv_len|]. split; [destruct IV as [Q|Q]; [left; rewrite DV; auto|right; auto]|].
    right. split; [unfold iv12 in EV; lia|]. destruct (rq_eiv r) as [|b iv] eqn:Q; [|exact RN]. intros X. apply RN. rewrite X. symmetry. apply initial_prefix, rnd_iv_len. }
  destruct (chal_told E (ri_now rj) r issued fwd (rnd_iv i) nonce content r3 s LA CS ST N1 N2 B1 B2 SY CE) as (s' & D & T & SS & DV').
  exists s'. split; [|auto].
  assert (CR : check_reply E (rs_profile s) (reply_data E g n content) = Ok tt).
  { pose proof CE as CE'. apply chal_encode_ok in CE' as (l & iv2 & PL & _ & _ & PQ); [|exact IV|apply rnd_iv_len].
    destruct (chal_plain_fits (ri_now rj) r issued fwd nonce l CS B1 B2 PL) as [_ FL].
    destruct (sealed_no_error E (rq_key r) (initial_iv (rq_eiv r) (rnd_iv i)) (rq_id r) (enc_tlvs l) LA (iv12_initial _ _ IV (rnd_iv_len i)) FL) as (els & P & C).
    rewrite <- PQ in P. eapply check_signed; eassumption. }
  unfold on_challenge_response. rewrite CR. exact D.
Qed.

(** ** Starting the challenge *)
Definition mail_of (E : env) (g : ca_cfg) (ctype : bytes) (params : mmap) (code : bytes) (r : request) : option bytes :=
  match params with [] => None | (_, addr) :: _ => Some (email_command E (cc_script (cf_chal g)) addr code r) end.
Lemma start_handled : forall E g i ctype life params code r, begins_with ctype params -> code_life ctype life -> gen_code (in_words i) = Ok code -> in_script_ok i = true ->
  rq_status r = ST_BEFORE -> name_policy g (c_name (rq_cert r)) ->
  exists els ks, step_asks ctype ST_BEFORE [] ks /\ step_payload ctype ST_BEFORE [] params els /\ Forall wf_tlv els /\ els <> [] /\ blen (enc_tlvs els) < 2 ^ 31 /\ selects els ctype /\
    handle_challenge E (cf_chal g) i ctype els r = Some (ret_new ctype (in_t2 i) r (bs "need-code") [(bs "code", code)] 3 life (mail_of E g ctype params code r)) /\
    starts E (cf_chal g) i els r ctype (CState (bs "need-code") (in_t2 i) 3 life [(bs "code", code)]) (mail_of E g ctype params code r).
Proof.
  intros E g i ctype life params code r B CL G SK ST NP. destruct B as [|addr B].
  - assert (life = 3600%Z) as -> by exact (life_same _ _ _ CL life_pin).
    exists [Tlv T_SelectedChallenge (bs "pin")], []. split; [constructor|]. split; [constructor|]. split; [constructor; [wft; apply small_fits; vm_compute; reflexivity|constructor]|]. split; [discriminate|].
    split; [vm_compute; reflexivity|]. split; [eexists; split; reflexivity|]. split; [|apply start_pin; exact G].
    unfold handle_challenge. change (bytes_eqb (bs "pin") CH_PIN) with true. cbv iota. unfold handle_pin. rewrite ST, G. reflexivity.
  - assert (life = 300%Z) as -> by exact (life_same _ _ _ CL life_email).
    set (els := [Tlv T_SelectedChallenge (bs "email"); Tlv T_ParameterKey (bs "email"); Tlv T_ParameterValue addr]).
    exists els, [bs "email"]. split; [constructor|]. split; [constructor|].
    split; [constructor; [wft; apply small_fits; vm_compute; reflexivity|]; constructor; [wft; apply small_fits; vm_compute; reflexivity|]; constructor; [wft; apply small_fits; unfold small_payload; lia|constructor]|]. split; [discriminate|].
    split. { unfold els. cbn [enc_tlvs]. rewrite !blen_app. pose proof (enc_tlv_len (Tlv T_SelectedChallenge (bs "email"))) as L1. pose proof (enc_tlv_len (Tlv T_ParameterKey (bs "email"))) as L2.
      pose proof (enc_tlv_len (Tlv T_ParameterValue addr)) as L3. cbn [t_val] in *. change (blen (bs "email")) with 5 in *. change (blen []) with 0. lia. }
    split; [eexists; split; reflexivity|]. split; [|exact (start_email E (cf_chal g) i els r code (Tlv T_ParameterValue addr) G eq_refl)].
    destruct (policy_identity g _ NP) as (c & Q).
    unfold handle_challenge. change (bytes_eqb (bs "email") CH_PIN) with false. change (bytes_eqb (bs "email") CH_EMAIL) with true. cbv iota. unfold handle_email. rewrite ST. change (ST_BEFORE =? ST_BEFORE) with true. cbv iota.
    change (get T_ParameterValue els) with (Some (Tlv T_ParameterValue addr)). cbv iota. rewrite Q, G, SK. reflexivity.
Qed.

(** Sending within a session. *)
Lemma send_linked : forall E g S (ops : store_ops S) rq ctype id sk creq ph ca s ri params els ks r ty, aes_laws E -> sig_laws E -> linked E g ops rq ctype id sk creq ph ca s ->
  pending ops ca id = Some r -> rs_div s = rq_eiv r -> rq_key r = rs_key s -> streams ph ctype r s ->
  step_asks ctype (rs_status s) (rs_cstatus s) ks -> step_payload ctype (rs_status s) (rs_cstatus s) params els -> Forall wf_tlv els -> els <> [] -> blen (enc_tlvs els) < 2 ^ 31 -> selects els ty ->
  exists x m iv2, select_challenge s ctype = (Ok m, upd_ctype ctype s) /\ gen_challenge E (upd_ctype ctype s) ri params = (Ok x, upd_eiv iv2 (upd_ctype ctype s)) /\
    names_request g id x /\ signed_by E x (o_pub E sk) /\ opened E x r els ty iv2 /\ iv12 iv2 /\ ctr_part iv2 <= used (rs_eiv s) + 2 ^ 28 /\
    rand_part iv2 = match ph with None => be_enc 8 (ri_iv ri) | Some _ => rand_part (rs_eiv s) end.
Proof.
  intros E g S ops rq ctype id sk creq ph ca s ri params els ks r ty LA LS [A L PK SZ ID (kn & KP) PF (cc & PC & PK2) _] P DV K ST AK PY W NE B SE.
  destruct (pending_live E g S ops ca id r A P) as [IDR LV].
  apply asks_iff in AK as (m & SEL & _).
  assert (SM : small_payload (enc_tlvs els)) by (unfold small_payload; lia).
  assert (BL : blocks16 (enc_tlvs els) < 2 ^ 28) by (unfold blocks16; apply N.div_lt_upper_bound; lia).
  assert (IS : iv_sound (rs_eiv s) /\ used (rs_eiv s) <= 2 ^ 30).
  { unfold iv_sound, used. destruct ph as [[[code k] t]|]; cbn [streams] in ST.
    - destruct ST as (I & _ & _ & C & K2 & _). split; [auto|]. destruct (rs_eiv s) as [|b l]; [discriminate I|]. assert (N.of_nat (k + 1) <= 3) by lia. nia.
    - destruct ST as (-> & _). split; [auto|lia]. }
  destruct IS as [IS US].
  destruct (gen_challenge_eq E (upd_ctype ctype s) ri params els kn sk PY KP IS SM) as (iv2 & GC & U & I2 & RP & CP); [unfold has_room; cbn [upd_ctype rs_eiv]; lia|].
  cbn [upd_ctype rs_profile rs_id rs_key rs_eiv] in GC, U, RP, CP. rewrite ID, PF, <- K in GC.
  eexists. exists m, iv2. split; [exact SEL|]. split; [exact GC|].
  split. { unfold names_request, signed_interest. cbn [i_name]. exists T_Generic. eexists. rewrite <- app_assoc. split; [reflexivity|exact L]. }
  split; [apply signed_signed, LS|]. split.
  - pose proof (iv12_initial (rs_eiv s) (be_enc 8 (ri_iv ri)) IS (be_enc_length 8 _)) as I1. apply sent_opened; auto.
    + destruct ph as [[[code k] t]|]; cbn [streams] in ST.
      * destruct ST as (I & _ & RN & _ & _ & _ & _ & _ & cs & C & _). right. rewrite (initial_ne _ _ I). split; [|exact RN].
        destruct (live_eiv r LV) as [Z|Z]; [|exact Z]. destruct LV as [(_ & _ & Q & _)|(_ & _ & _ & Q & _)]; [congruence|exact Q].
      * destruct ST as (_ & Q & _). left. destruct LV as [(_ & _ & _ & Z & _)|(Z & _)]; [exact Z|rewrite Q in Z; discriminate].
    + destruct ph as [[[code k] t]|]; cbn [streams] in ST.
      * destruct ST as (I & D & _). right. rewrite D. symmetry. apply initial_ne, I.
      * destruct ST as (_ & Q & _). left. destruct LV as [(_ & _ & _ & _ & Z)|(Z & _)]; [exact Z|rewrite Q in Z; discriminate].
  - split; [exact I2|]. split; [lia|]. rewrite RP. destruct ph as [[[code k] t]|]; cbn [streams] in ST.
    + destruct ST as (I & _). rewrite (initial_ne _ _ I). reflexivity.
    + destruct ST as (-> & _). apply initial_prefix, be_enc_length.
Qed.
(** An exchange that moves the challenge on. *)
Lemma move_round : forall E g S (ops : store_ops S) rq ctype id sk creq ph ca s ri rj i params els m x iv2 r cs em h code k, aes_laws E -> sig_laws E ->
  linked E g ops rq ctype id sk creq ph ca s -> pending ops ca id = Some r -> rq_cert r = creq -> rq_type r = rq -> rs_div s = rq_eiv r -> rq_key r = rs_key s ->
  select_challenge s ctype = (Ok m, upd_ctype ctype s) -> gen_challenge E (upd_ctype ctype s) ri params = (Ok x, upd_eiv iv2 (upd_ctype ctype s)) ->
  names_request g id x -> signed_by E x (o_pub E sk) -> opened E x r els ctype iv2 -> iv12 iv2 -> ctr_part iv2 <= 2 ^ 28 * N.of_nat (k + 1) ->
  rand_part iv2 <> rand_part (initial_iv (rq_eiv r) (rnd_iv i)) -> (exists life, code_life ctype life) ->
  moves E (cf_chal g) i els (set_div iv2 r) ctype cs em -> handle_challenge E (cf_chal g) i ctype els (set_div iv2 r) = Some h -> (exists info, h_out h = Ok (NO_ERROR, info)) ->
  h_req h = moved iv2 ctype cs r -> h_email h = em -> (k <= 2)%nat -> wants_code cs -> cs_secrets cs = [(bs "code", code)] -> cs_tries cs = 3 - N.of_nat k -> cs_time cs = in_t2 i -> (0 <= in_t2 i)%Z ->
  (0 <= cs_rtime cs <= 3600)%Z -> clock_ok rj ->
  exists ca' s3 d r3, round E g ops ca s ri rj i ctype params = Some (ca', email_effs em ++ [EUpdate r3; EPut d; ECallback r3], s3) /\
    linked E g ops rq ctype id sk creq (Some (code, k, in_t2 i)) ca' s3 /\ rs_status s3 = ST_CHALLENGE /\ rs_cstatus s3 = cs_status cs /\ rs_tries s3 = Z.of_N (cs_tries cs) /\
    rs_fresh s3 = (ri_now rj + sec (cs_rtime cs))%Z /\ rq_cs r3 = Some cs.
Proof.
  intros E g S ops rq ctype id sk creq ph ca s ri rj i params els m x iv2 r cs em h code k LA LS LK P CR RT DV K SEL GC N SB OP I2 CT RN CL MV HC HO HR HE KK WC SE TR TM T0 RTI CK.
  destruct LK as [A L PK SZ ID (kn & KP) PF (cc & PC & PK2) _]. destruct (pending_live E g S ops ca id r A P) as [IDR LV].
  assert (SB' : signed_by E x (public_key (rq_cert r))) by (rewrite CR, PK; exact SB).
  destruct (move_step E g S ops ca i x id r els ctype iv2 cs em h A N P SB' OP MV HC HO HR HE) as (ca' & payload & r3 & nrm & ST & NO & P' & CE).
  assert (KT : known_type ctype) by (destruct CL as [life CL]; destruct CL; unfold known_type; auto).
  destruct (moved_live E g i x r els ctype iv2 cs em payload r3 LV OP KT MV CE) as (iv3 & R3 & I3 & _ & _ & LV3).
  destruct (moved_reply E (cf_chal g) i x r els ctype iv2 cs em payload r3 LV OP MV CE) as (_ & iv3' & _ & _ & R3' & _ & _ & PX & _).
  assert (iv3' = iv3) as -> by (pose proof (f_equal rq_eiv R3) as Q1; pose proof (f_equal rq_eiv R3') as Q2; cbn in Q1, Q2; congruence).
  assert (CO : forall c0, rq_cs (moved iv2 ctype cs r) = Some c0 -> cs_ok (ri_now rj) [] c0).
  { intros c0 Q. cbn in Q. injection Q as <-. unfold clock_ok in CK. unfold cs_ok, sec. split; [destruct WC as [-> | ->]; vm_compute; reflexivity|]. split; [lia|]. split; [lia|]. split; [lia|]. split; [lia|].
    intros Q. destruct WC as [Z|Z]; rewrite Z in Q; discriminate. }
  assert (NF : name_fits []) by (split; [constructor|unfold fits; vm_compute; reflexivity]).
  destruct (reply_read E g (i_name x) (moved iv2 ctype cs r) [] [] i rj [] payload r3 (upd_eiv iv2 (upd_ctype ctype s)) cc LA LS (live_eiv r LV) CO ltac:(vm_compute; discriminate) NF NF
    ltac:(vm_compute; reflexivity) ltac:(vm_compute; reflexivity) CE PC PK2 (eq_sym K) ltac:(cbn; congruence) DV I2 RN) as (s3 & RR & (T1 & T2 & _) & SS & DV3).
  cbn [rq_cs moved set_cs rq_status set_ctype set_status] in T1, T2. destruct T2 as (T2 & T3 & T4 & _).
  destruct SS as (S1 & S2 & S3 & S4 & S5 & S6 & S7 & S8 & S9). cbn in S1, S2, S3, S4, S5, S6, S7, S8, S9.
  exists ca', s3, (reply_data E g (i_name x) payload), r3. split.
  { unfold round. rewrite SEL, GC, ST. rewrite puts_app, puts_emails. cbn [app puts flat_map]. rewrite RR. reflexivity. }
  split; [|rewrite T1, T2, T3, T4, R3; auto]. constructor.
  - exact (ca_at_step _ _ _ _ _ _ _ _ A ST).
  - exact L.
  - exact PK.
  - exact SZ.
  - congruence.
  - exists kn. congruence.
  - rewrite S1. exact PF.
  - rewrite S1. exists cc. auto.
  - exists (nrm r3). split; [exact P'|]. destruct (nrm_fixed nrm r3 NO) as (_ & N2 & N3 & N4 & _ & N6 & N7). rewrite N2, N3, N4, N6, DV3. subst r3. cbn [rq_cert rq_type rq_key set_eiv moved set_cs set_ctype set_status set_div rq_eiv].
    split; [exact CR|]. split; [exact RT|]. split; [congruence|]. split; [reflexivity|]. unfold streams. rewrite N6, N7, S8. cbn [rq_div rq_eiv set_eiv moved set_cs set_ctype set_status set_div].
    split; [exact I2|]. split; [reflexivity|]. split; [change (rand_part iv3) with (iv_prefix iv3); rewrite PX; exact RN|]. split; [exact CT|]. split; [exact KK|]. split; [exact T1|]. split; [exact S5|]. split; [exact T0|].
    destruct (NO (set_eiv iv3 (moved iv2 ctype cs r))) as [Q|Q]; rewrite Q.
    + exists cs. split; [reflexivity|]. split; [exact T2|]. auto 10.
    + eexists. split; [reflexivity|]. cbn [cs_status cs_secrets cs_tries cs_time]. split; [exact T2|]. split; [exact WC|]. split; [exact SE|]. split; [exact TR|]. right. rewrite TM. reflexivity.
Qed.
Lemma start_round : forall E g S (ops : store_ops S) rq ctype life id sk creq ca s ri rj i params code, aes_laws E -> sig_laws E -> code_life ctype life ->
  linked E g ops rq ctype id sk creq None ca s -> begins_with ctype params -> gen_code (in_words i) = Ok code -> in_script_ok i = true -> (0 <= in_t2 i)%Z ->
  be_enc 8 (ri_iv ri) <> rnd_iv i -> clock_ok rj ->
  exists ca' s' d r3 r, round E g ops ca s ri rj i ctype params = Some (ca', email_effs (mail_of E g ctype params code r) ++ [EUpdate r3; EPut d; ECallback r3], s') /\
    rq_cert r = creq /\ rq_prefix r = p_prefix (cfp g) /\
    linked E g ops rq ctype id sk creq (Some (code, 0%nat, in_t2 i)) ca' s' /\ rs_status s' = ST_CHALLENGE /\ rs_cstatus s' = bs "need-code" /\ rs_tries s' = 3%Z /\
    rs_fresh s' = (ri_now rj + sec life)%Z /\ (exists cs, rq_cs r3 = Some cs /\ sec_get (bs "code") (cs_secrets cs) = Some code).
Proof.
  intros E g S ops rq ctype life id sk creq ca s ri rj i params code LA LS CL LK B G SK T0 RN CK.
  destruct (lk_req _ _ _ _ _ _ _ LK) as (r & P & CR & RT & K & DV & STR). pose proof STR as STR'. destruct STR' as (EV & SR & SS & SC).
  pose proof (lk_at _ _ _ _ _ _ _ LK) as A. destruct (pending_good E g S ops ca id r A P) as (_ & _ & _ & RP & _ & NP). destruct (pending_live E g S ops ca id r A P) as [_ LV].
  destruct (start_handled E g i ctype life params code r B CL G SK SR NP) as (els & ks & AK & PY & W & NE & SZ & SE & _ & _).
  rewrite <- SS, <- SC in AK, PY.
  destruct (send_linked E g S ops rq ctype id sk creq None ca s ri params els ks r ctype LA LS LK P DV K STR AK PY W NE SZ SE) as (x & m & iv2 & SEL & GC & N & SB & OP & I2 & CT & RN2).
  destruct (start_handled E g i ctype life params code (set_div iv2 r) B CL G SK SR NP) as (els' & ks' & _ & PY' & _ & _ & _ & _ & HC & STT).
  assert (els' = els) as -> by (apply step_payload_iff in PY, PY'; rewrite SS, SC in PY; congruence).
  set (em := mail_of E g ctype params code (set_div iv2 r)) in *.
  set (cs := CState (bs "need-code") (in_t2 i) 3 life [(bs "code", code)]) in *.
  assert (EV0 : rq_eiv r = []) by (destruct LV as [(_ & _ & _ & Z & _)|(Z & _)]; [exact Z|rewrite SR in Z; discriminate]).
  destruct (move_round E g S ops rq ctype id sk creq None ca s ri rj i params els m x iv2 r cs em (ret_new ctype (in_t2 i) (set_div iv2 r) (bs "need-code") [(bs "code", code)] 3 life em) code 0 LA LS LK P CR RT DV K SEL GC N SB OP I2)
    as (ca' & s3 & d & r3 & RD & LK' & Q1 & Q2 & Q3 & Q4 & Q5); auto.
  - rewrite EV in CT. cbn [used] in CT. change (N.of_nat (0 + 1)) with 1. lia.
  - rewrite RN2, EV0. change (rand_part (initial_iv [] (rnd_iv i))) with (iv_prefix (initial_iv [] (rnd_iv i))). rewrite initial_prefix by apply rnd_iv_len. exact RN.
  - exists life. exact CL.
  - left. auto.
  - exists []. reflexivity.
  - unfold moved. destruct CL; reflexivity.
  - left. reflexivity.
  - destruct CL; cbn; lia.
  - exists ca', s3, d, r3, (set_div iv2 r). split; [exact RD|]. split; [exact CR|]. split; [exact RP|]. split; [exact LK'|]. split; [exact Q1|]. split; [exact Q2|]. split; [exact Q3|]. split; [exact Q4|]. exists cs. auto.
Qed.

(** ** Guessing *)
Definition code_els (ctype given : bytes) : list tlv := [Tlv T_SelectedChallenge ctype; Tlv T_ParameterKey (bs "code"); Tlv T_ParameterValue given].
Lemma code_payload : forall ctype life cst given, code_life ctype life -> wants cst -> blen given < 2 ^ 30 ->
  step_asks ctype ST_CHALLENGE cst [bs "code"] /\ step_payload ctype ST_CHALLENGE cst [(bs "code", given)] (code_els ctype given) /\ Forall wf_tlv (code_els ctype given) /\
  blen (enc_tlvs (code_els ctype given)) < 2 ^ 31 /\ selects (code_els ctype given) ctype.
Proof.
  intros ctype life cst given CL W B.
  assert (CT : blen ctype <= 5) by (destruct CL; vm_compute; discriminate).
  split; [destruct CL; constructor; exact W|]. split; [destruct CL; constructor; exact W|].
  split; [constructor; [wft; apply small_fits; unfold small_payload; lia|]; constructor; [wft; apply small_fits; vm_compute; reflexivity|]; constructor; [wft; apply small_fits; unfold small_payload; lia|constructor]|].
  split; [|eexists; split; reflexivity].
  unfold code_els. cbn [enc_tlvs]. rewrite !blen_app. pose proof (enc_tlv_len (Tlv T_SelectedChallenge ctype)) as L1. pose proof (enc_tlv_len (Tlv T_ParameterKey (bs "code"))) as L2.
  pose proof (enc_tlv_len (Tlv T_ParameterValue given)) as L3. cbn [t_val] in *. change (blen (bs "code")) with 4 in *. change (blen []) with 0. lia.
Qed.
Lemma in_time : forall i t cs life, (0 <= t)%Z -> cs_time cs = t \/ cs_time cs = trunc_us t -> (t <= in_t1 i < t + sec life - 1000)%Z ->
  (0 <= in_t1 i - cs_time cs < sec life)%Z.
Proof.
  intros i t cs life T0 C B. destruct C as [->| ->]; [lia|]. unfold trunc_us. rewrite Z.quot_div_nonneg by lia. pose proof (Z.div_mod t 1000 ltac:(lia)). pose proof (Z.mod_pos_bound t 1000 ltac:(lia)). lia.
Qed.
Lemma wrong_round : forall E g S (ops : store_ops S) rq ctype life id sk creq code k t ca s ri rj i given, aes_laws E -> sig_laws E -> code_life ctype life ->
  linked E g ops rq ctype id sk creq (Some (code, k, t)) ca s -> given <> code -> blen given < 2 ^ 30 -> (t <= in_t1 i < t + sec life - 1000 /\ 0 <= in_t2 i)%Z -> clock_ok rj -> (k < 2)%nat ->
  exists ca' s' d r3, round E g ops ca s ri rj i ctype [(bs "code", given)] = Some (ca', [EUpdate r3; EPut d; ECallback r3], s') /\
    linked E g ops rq ctype id sk creq (Some (code, Datatypes.S k, in_t2 i)) ca' s' /\ rs_status s' = ST_CHALLENGE /\ rs_cstatus s' = bs "wrong-code" /\ rs_tries s' = (2 - Z.of_nat k)%Z /\
    (ri_now rj <= rs_fresh s' <= ri_now rj + sec life)%Z.
Proof.
  intros E g S ops rq ctype life id sk creq code k t ca s ri rj i given LA LS CL LK NE B (TB & T2) CK K2.
  destruct (lk_req _ _ _ _ _ _ _ LK) as (r & P & CR & RT & K & DV & STR). pose proof STR as STR'. destruct STR' as (I & D & RN & CT & KK & SS & SCT & T0 & cs & C & SC & WC & SE & TR & TM).
  pose proof (lk_at _ _ _ _ _ _ _ LK) as A. destruct (pending_live E g S ops ca id r A P) as [_ LV].
  assert (W : wants (rs_cstatus s)) by (rewrite SC; exact WC).
  destruct (code_payload ctype life (rs_cstatus s) given CL W B) as (AK & PY & WF & SZ & SEL0). rewrite <- SS in AK, PY.
  destruct (send_linked E g S ops rq ctype id sk creq _ ca s ri _ (code_els ctype given) _ r ctype LA LS LK P DV K STR AK PY WF ltac:(discriminate) SZ SEL0) as (x & m & iv2 & SEL & GC & N & SB & OP & I2 & CT2 & RN2).
  pose proof (in_time i t cs life T0 TM TB) as IT.
  assert (GU : guesses i (code_els ctype given) cs ctype given) by (exists life, (Tlv T_ParameterValue given); split; [exact CL|]; split; [exact WC|]; split; [reflexivity|]; split; [reflexivity|lia]).
  assert (SG : sec_get (bs "code") (cs_secrets cs) = Some code) by (rewrite SE; reflexivity).
  pose proof (live_cs_none r cs LV C) as STA.
  destruct (code_forward E (cf_chal g) i (code_els ctype given) (set_div iv2 r) cs ctype given code STA C GU SG) as (life' & msg & CL' & FM & HC).
  assert (life' = life) as -> by exact (life_same _ _ _ CL' CL).
  rewrite (proj2 (bytes_eqb_neq given code) NE) in HC. assert (T1 : 1 < cs_tries cs) by lia. apply N.ltb_lt in T1. rewrite T1 in HC. apply N.ltb_lt in T1.
  set (rt := Z.quot (sec life - (in_t1 i - cs_time cs)) (sec 1)) in *.
  assert (RTB : (0 <= rt <= life)%Z).
  { unfold rt, sec in *. rewrite Z.quot_div_nonneg by lia. split; [apply Z.div_pos; lia|]. apply Z.div_le_upper_bound; lia. }
  set (cs' := CState (bs "wrong-code") (in_t2 i) (cs_tries cs - 1) rt (cs_secrets cs)).
  destruct (move_round E g S ops rq ctype id sk creq _ ca s ri rj i _ (code_els ctype given) m x iv2 r cs' None (ret_new ctype (in_t2 i) (set_div iv2 r) (bs "wrong-code") (cs_secrets cs) (cs_tries cs - 1) rt None) code (Datatypes.S k) LA LS LK P CR RT DV K SEL GC N SB OP I2)
    as (ca' & s3 & d & r3 & RD & LK' & Q1 & Q2 & Q3 & Q4 & Q5); auto.
  - assert (used (rs_eiv s) = ctr_part (rs_eiv s)) as U by (unfold used; destruct (rs_eiv s); [discriminate I|reflexivity]). rewrite U in CT2.
    replace (N.of_nat (Datatypes.S k + 1)) with (N.of_nat (k + 1) + 1) by lia. lia.
  - rewrite RN2. assert (IE : iv12 (rq_eiv r)) by (destruct LV as [(_ & _ & Z & _)|(_ & _ & _ & Z & _)]; [congruence|exact Z]). rewrite (initial_ne _ _ IE). exact RN.
  - exists life. exact CL.
  - right. cbn [set_div rq_status rq_cs]. split; [rewrite STA; discriminate|]. split; [reflexivity|]. exists cs. split; [exact C|]. exists given, code, life. auto 10.
  - exists []. reflexivity.
  - unfold moved. destruct CL; reflexivity.
  - right. reflexivity.
  - cbn. lia.
  - cbn. destruct CL; lia.
  - exists ca', s3, d, r3. split; [exact RD|]. split; [exact LK'|]. split; [exact Q1|]. split; [exact Q2|]. split; [rewrite Q3; cbn; lia|]. rewrite Q4. cbn [cs_rtime cs']. unfold sec. lia.
Qed.

(** The interest that carries a code. *)
Lemma guess_sent : forall E g S (ops : store_ops S) rq ctype life id sk creq code k t ca s ri i given, aes_laws E -> sig_laws E -> code_life ctype life ->
  linked E g ops rq ctype id sk creq (Some (code, k, t)) ca s -> blen given < 2 ^ 30 -> (t <= in_t1 i < t + sec life - 1000)%Z ->
  exists r cs m x iv2 msg, pending ops ca id = Some r /\ rq_cert r = creq /\ rq_type r = rq /\ rq_key r = rs_key s /\ rs_div s = rq_eiv r /\ iv12 (rq_eiv r) /\ cs_tries cs = 3 - N.of_nat k /\
    select_challenge s ctype = (Ok m, upd_ctype ctype s) /\ gen_challenge E (upd_ctype ctype s) ri [(bs "code", given)] = (Ok x, upd_eiv iv2 (upd_ctype ctype s)) /\
    names_request g id x /\ signed_by E x (public_key (rq_cert r)) /\ opened E x r (code_els ctype given) ctype iv2 /\ iv12 iv2 /\ rand_part iv2 <> rand_part (rq_eiv r) /\ fits msg /\
    handle_challenge E (cf_chal g) i ctype (code_els ctype given) (set_div iv2 r) = Some
      (if bytes_eqb given code then ret_success ctype (set_div iv2 r) None
       else if 1 <? cs_tries cs then ret_new ctype (in_t2 i) (set_div iv2 r) (bs "wrong-code") (cs_secrets cs) (cs_tries cs - 1) (Z.quot (sec life - (in_t1 i - cs_time cs)) (sec 1)) None
       else ret_error (set_div iv2 r) OUT_OF_TRIES msg None).
Proof.
  intros E g S ops rq ctype life id sk creq code k t ca s ri i given LA LS CL LK B TB.
  destruct (lk_req _ _ _ _ _ _ _ LK) as (r & P & CR & RT & K & DV & STR). pose proof STR as STR'. destruct STR' as (I & D & RN & CT & KK & SS & SCT & T0 & cs & C & SC & WC & SE & TR & TM).
  pose proof (lk_at _ _ _ _ _ _ _ LK) as A. destruct (pending_live E g S ops ca id r A P) as [_ LV].
  assert (W : wants (rs_cstatus s)) by (rewrite SC; exact WC).
  destruct (code_payload ctype life (rs_cstatus s) given CL W B) as (AK & PY & WF & SZ & SEL0). rewrite <- SS in AK, PY.
  destruct (send_linked E g S ops rq ctype id sk creq _ ca s ri _ (code_els ctype given) _ r ctype LA LS LK P DV K STR AK PY WF ltac:(discriminate) SZ SEL0) as (x & m & iv2 & SEL & GC & N & SB & OP & I2 & CT2 & RN2).
  pose proof (in_time i t cs life T0 TM TB) as IT.
  assert (GU : guesses i (code_els ctype given) cs ctype given) by (exists life, (Tlv T_ParameterValue given); split; [exact CL|]; split; [exact WC|]; split; [reflexivity|]; split; [reflexivity|lia]).
  assert (SG : sec_get (bs "code") (cs_secrets cs) = Some code) by (rewrite SE; reflexivity).
  pose proof (live_cs_none r cs LV C) as STA.
  destruct (code_forward E (cf_chal g) i (code_els ctype given) (set_div iv2 r) cs ctype given code STA C GU SG) as (life' & msg & CL' & FM & HC).
  assert (life' = life) as -> by exact (life_same _ _ _ CL' CL).
  assert (IE : iv12 (rq_eiv r)) by (destruct LV as [(_ & _ & Z & _)|(_ & _ & _ & Z & _)]; [congruence|exact Z]).
  assert (SB' : signed_by E x (public_key (rq_cert r))) by (rewrite CR, (lk_pk _ _ _ _ _ _ _ LK); exact SB).
  assert (RN3 : rand_part iv2 <> rand_part (rq_eiv r)) by (rewrite RN2; exact RN).
  exists r, cs, m, x, iv2, msg. auto 20.
Qed.
(** A third wrong code ends the session. *)
Lemma third_round : forall E g S (ops : store_ops S) rq ctype life id sk creq code t ca s ri rj i given, aes_laws E -> sig_laws E -> code_life ctype life ->
  linked E g ops rq ctype id sk creq (Some (code, 2%nat, t)) ca s -> given <> code -> blen given < 2 ^ 30 -> (t <= in_t1 i < t + sec life - 1000)%Z ->
  round E g ops ca s ri rj i ctype [(bs "code", given)] = None.
Proof.
  intros E g S ops rq ctype life id sk creq code t ca s ri rj i given LA LS CL LK NE B TB.
  destruct (guess_sent E g S ops rq ctype life id sk creq code 2 t ca s ri i given LA LS CL LK B TB) as (r & cs & m & x & iv2 & msg & P & CR & RT & K & DV & IE & TR & SEL & GC & N & SB & OP & I2 & RN & FM & HC).
  pose proof (lk_at _ _ _ _ _ _ _ LK) as A. destruct (lk_cert _ _ _ _ _ _ _ LK) as (cc & PC & PK).
  pose proof (chal_forward E g S ops ca i x id r _ ctype iv2 A N P SB OP) as FW. rewrite HC in FW. rewrite (proj2 (bytes_eqb_neq given code) NE), TR in FW.
  change (1 <? 3 - N.of_nat 2) with false in FW. cbv iota in FW. cbn [ret_error h_out h_email email_effs] in FW. change (negb (OUT_OF_TRIES =? NO_ERROR)) with true in FW. cbv iota in FW.
  unfold drop_error in FW. cbn [app] in FW. pose proof (ok_step E g S ops ca i x _ FW) as ST. unfold round. rewrite SEL, GC, ST. cbn [puts flat_map app].
  match goal with |- context [on_challenge_response E ?s' rj ?d] => assert (Q : fst (on_challenge_response E s' rj d) = Exn) end.
  { unfold on_challenge_response. cbn [upd_eiv upd_ctype rs_profile].
    match goal with |- context [check_reply E ?p ?d] => assert (CKR : check_reply E p d = Exn) end.
    { apply (proj1 (check_bad E _ cc _ PC)). right. exists OUT_OF_TRIES. split; [discriminate|]. apply decoded_error; [|discriminate].
      destruct (error_data_reply E g x OUT_OF_TRIES msg) as (_ & _ & info & Q); [split; [discriminate|]; split; [discriminate|exact FM]|]. rewrite Q. reflexivity. }
    rewrite CKR. reflexivity. }
  destruct (on_challenge_response _ _ _ _) as [o s3]. cbn [fst] in Q. subst o. reflexivity.
Qed.
(** The right code. *)
Lemma issued_fits : forall E g v r c, good g r -> wf_cert (rq_cert r) -> issue_certificate E g v r = Ok c -> blen (name_wire (c_name c)) < 2 ^ 32 -> name_fits (c_name c).
Proof.
  intros E g v r c GD (W & _) IC B. destruct (issued_facts E g v r c GD IC) as [(kn & i0 & v0 & v1 & Q0 & Q1 & _) _]. rewrite Q0 in W. apply Forall_app in W as [W _].
  split; [|unfold fits; lia]. rewrite Q1. apply wf_name_app; [exact W|]. constructor; [wft; reflexivity|]. constructor; [wft; apply fits_nni|constructor].
Qed.
Lemma right_round : forall E g S (ops : store_ops S) ctype life id sk creq code k t ca s ri rj i, aes_laws E -> sig_laws E -> config_fits g -> code_life ctype life ->
  linked E g ops RT_NEW ctype id sk creq (Some (code, k, t)) ca s -> blen code < 2 ^ 30 -> (t <= in_t1 i < t + sec life - 1000)%Z -> clock_ok rj ->
  exists ca' s' c d r3, round E g ops ca s ri rj i ctype [(bs "code", code)] = Some (ca', [EIssue c; EDelete id; EPut d; ECallback r3], s') /\
    certifies E g creq c /\ public_key c = o_pub E sk /\ rs_status s' = ST_SUCCESS /\ rs_issued s' = c_name c /\ rs_fwd s' = p_fwd (cfp g) /\ pending ops ca' id = None.
Proof.
  intros E g S ops ctype life id sk creq code k t ca s ri rj i LA LS (_ & _ & FH & B2) CL LK B TB CK.
  destruct (guess_sent E g S ops RT_NEW ctype life id sk creq code k t ca s ri i code LA LS CL LK B TB) as (r & cs & m & x & iv2 & msg & P & CR & RT & K & DV & IE & TR & SEL & GC & N & SB & OP & I2 & RN & FM & HC).
  pose proof (lk_at _ _ _ _ _ _ _ LK) as A. destruct (lk_cert _ _ _ _ _ _ _ LK) as (cc & PC & PK). pose proof (lk_size _ _ _ _ _ _ _ LK) as B1. rewrite <- CR in B1.
  destruct (pending_live E g S ops ca id r A P) as [ID LV]. pose proof (pending_good E g S ops ca id r A P) as (_ & STO & GD).
  pose proof (chal_forward E g S ops ca i x id r _ ctype iv2 A N P SB OP) as FW. rewrite HC in FW. rewrite bytes_eqb_refl in FW.
  cbn [ret_success h_out h_email h_req email_effs] in FW. change (negb (NO_ERROR =? NO_ERROR)) with false in FW. cbv iota in FW.
  destruct (new_validity ca id r A P RT) as (v & V).
  assert (IC : exists c, issue_certificate E g (in_version i) r = Ok c) by (unfold issue_certificate; rewrite V; eexists; reflexivity). destruct IC as (c & IC).
  destruct (issued_facts E g (in_version i) r c GD IC) as [CE NP]. destruct (issued_size r c (in_version i) (proj2 (proj2 (proj2 GD))) IC B1) as [NE B3].
  pose proof (issued_fits E g (in_version i) r c GD (proj1 (proj2 STO)) IC B3) as NF.
  set (r1 := set_cs None (set_ctype ctype (set_status ST_PENDING (set_div iv2 r)))) in *.
  unfold after_challenge in FW. change (rq_status r1 =? ST_PENDING) with true in FW. change (rq_type r1) with (rq_type r) in FW. rewrite RT in FW. change ((RT_NEW =? RT_NEW) || (RT_NEW =? RT_RENEW)) with true in FW. cbv iota in FW.
  change (issue_certificate E g (in_version i) r1) with (issue_certificate E g (in_version i) r) in FW. rewrite IC in FW.
  set (r2 := set_status ST_SUCCESS (set_cert c r1)) in *. change (rq_id r1) with (rq_id r) in FW.
  destruct (c_name c) as [|n0 n1] eqn:CN; [contradiction|]. rewrite <- CN in *.
  assert (PL : chal_plain r2 (c_name c) (p_fwd (cfp g)) = Ok [Tlv T_Status (nni_enc ST_SUCCESS); Tlv T_IssuedCertName (name_wire (c_name c)); Tlv T_ForwardingHint (name_wire (p_fwd (cfp g)))]).
  { unfold chal_plain. rewrite CN. reflexivity. }
  set (l := [Tlv T_Status (nni_enc ST_SUCCESS); Tlv T_IssuedCertName (name_wire (c_name c)); Tlv T_ForwardingHint (name_wire (p_fwd (cfp g)))]) in *.
  assert (SZ : blen (enc_tlvs l) < 2 ^ 35).
  { unfold l. cbn [enc_tlvs]. rewrite !blen_app. pose proof (enc_tlv_len (Tlv T_Status (nni_enc ST_SUCCESS))) as L1. pose proof (enc_tlv_len (Tlv T_IssuedCertName (name_wire (c_name c)))) as L2.
    pose proof (enc_tlv_len (Tlv T_ForwardingHint (name_wire (p_fwd (cfp g))))) as L3. cbn [t_val] in *. change (blen (nni_enc ST_SUCCESS)) with 1 in L1. change (blen []) with 0. lia. }
  pose proof (initial_small E g S ops ca id r i A P) as CI.
  destruct (chal_encode_fine E r2 (c_name c) (p_fwd (cfp g)) (rnd_iv i) l (live_eiv r LV) (rnd_iv_len i) PL SZ) as (payload & r3 & EN).
  { change (rq_eiv r2) with (rq_eiv r). lia. }
  rewrite EN in FW. unfold finish in FW. cbn [app] in FW. pose proof (ok_step E g S ops ca i x _ FW) as ST.
  destruct (reply_read E g (i_name x) r2 (c_name c) (p_fwd (cfp g)) i rj [] payload r3 (upd_eiv iv2 (upd_ctype ctype s)) cc LA LS (live_eiv r LV) (fun c0 Q => ltac:(discriminate))
    ltac:(vm_compute; discriminate) NF FH B3 B2 EN PC PK (eq_sym K)) as (s3 & RR & (T1 & _ & _ & T2) & _ & _).
  { pose proof (lk_id _ _ _ _ _ _ _ LK) as L. cbn. congruence. }
  { exact DV. }
  { exact I2. }
  { change (rq_eiv r2) with (rq_eiv r). rewrite (initial_ne _ _ IE). exact RN. }
  destruct (T2 NE) as [T3 T4].
  pose proof (deleted_gone E g S ops _ _ _ _ id A ST (or_intror (or_introl (f_equal EDelete ID)))) as GONE.
  eexists. exists s3, c, (reply_data E g (i_name x) payload), r3. split.
  { unfold round. rewrite SEL, GC, ST. cbn [puts flat_map app]. rewrite RR, <- ID. reflexivity. }
  rewrite CR in CE. split; [exact CE|]. split.
  { destruct CE as (_ & _ & _ & _ & _ & _ & Q & _). rewrite <- (lk_pk _ _ _ _ _ _ _ LK). unfold public_key. rewrite Q. reflexivity. }
  rewrite T1. auto.
Qed.

(** ** Sessions *)
Lemma code_small : forall ws code, gen_code ws = Ok code -> blen code < 2 ^ 30.
Proof. intros ws code H. apply gen_code_spec in H as (w & _ & _ & _ & k & _ & ->). vm_compute. reflexivity. Qed.
Definition phase_code (ph : option (bytes * nat * Z)) : Prop := match ph with Some (code, _, _) => blen code < 2 ^ 30 | None => True end.
Lemma session_linked : forall E g S (ops : store_ops S) ctype life id sk creq ph ca s, env_laws E -> config_fits g -> (ph <> None -> code_life ctype life) ->
  session E g ops ctype life id sk creq ph ca s -> linked E g ops RT_NEW ctype id sk creq ph ca s /\ phase_code ph.
Proof.
  intros E g S ops ctype life id sk creq ph ca s L CF CL SE. induction SE as
    [ca0 s0 ri rj i kn nb na ca es s chals A AP -> -> P L2 OP|ph ca s ca' SE IH Q|ca s ri rj i params code ca' es s' SE IH B G SK T0 RN CK RD|code k t ca s ri rj i given ca' es s' SE IH NE B TB CK RD].
  - destruct (opening_linked E g S ops ctype ca0 s0 ri rj i kn sk nb na L CF A AP P L2) as (ca1 & es1 & s1 & OP1 & LK). rewrite OP1 in OP. injection OP as <- <- <- <-. split; [exact LK|exact I].
  - destruct (IH CL) as [LK PC]. split; [eapply quiet_linked; eassumption|exact PC].
  - destruct (IH ltac:(congruence)) as [LK _]. destruct L as [LA LE LH LS LC].
    destruct (start_round E g S ops RT_NEW ctype life id sk creq ca s ri rj i params code LA LS (CL ltac:(discriminate)) LK B G SK T0 RN CK) as (ca1 & s1 & d & r3 & r & RD1 & _ & _ & LK1 & _).
    rewrite RD1 in RD. injection RD as <- _ <-. split; [exact LK1|exact (code_small _ _ G)].
  - specialize (CL ltac:(discriminate)). destruct (IH (fun _ => CL)) as [LK PC]. destruct L as [LA LE LH LS LC].
    assert (KK : (k <= 2)%nat). { destruct (lk_req _ _ _ _ _ _ _ LK) as (r & _ & _ & _ & _ & _ & _ & _ & _ & _ & Q & _). exact Q. }
    assert (k = 2%nat \/ (k < 2)%nat) as [-> |K2] by lia.
    + rewrite (third_round E g S ops RT_NEW ctype life id sk creq code t ca s ri rj i given LA LS CL LK NE B ltac:(tauto)) in RD. discriminate.
    + destruct (wrong_round E g S ops RT_NEW ctype life id sk creq code k t ca s ri rj i given LA LS CL LK NE B TB CK K2) as (ca1 & s1 & d & r3 & RD1 & LK1 & _). rewrite RD1 in RD. injection RD as <- _ <-. auto.
Qed.

(** ** The statements *)
Definition open_ok : forall E g S (ops : store_ops S) ctype life ca0 s0 ri rj i kn sk nb na, env_laws E -> config_fits g -> ca_at E g ops ca0 -> applies E g s0 ri i kn sk nb na ->
  let creq := cert_request E sk ri kn nb na in let id := request_id_of E (ca_idkey ca0) (c_name creq) in
  pending ops ca0 id = None -> length (ri_salt0 rj) = 32%nat ->
  exists ca es s, opening E g ops ca0 s0 ri rj i kn sk nb na = Some (ca, es, s, p_challenges (cfp g)) /\ session E g ops ctype life id sk creq None ca s.
Proof.
  intros E g S ops ctype life ca0 s0 ri rj i kn sk nb na L CF A AP creq id P L2.
  destruct (opening_linked E g S ops ctype ca0 s0 ri rj i kn sk nb na L CF A AP P L2) as (ca & es & s & OP & _). exists ca, es, s. split; [exact OP|]. eapply se_open; eauto.
Qed.
Lemma start_ok : forall E g S (ops : store_ops S) ctype life id sk creq ca s ri rj i params code, env_laws E -> config_fits g -> code_life ctype life ->
  session E g ops ctype life id sk creq None ca s -> begins_with ctype params -> gen_code (in_words i) = Ok code -> in_script_ok i = true -> (0 <= in_t2 i)%Z ->
  be_enc 8 (ri_iv ri) <> rnd_iv i -> clock_ok rj ->
  exists ca' s' d r3 r, round E g ops ca s ri rj i ctype params = Some (ca', email_effs (mail_of E g ctype params code r) ++ [EUpdate r3; EPut d; ECallback r3], s') /\
    rq_cert r = creq /\ rq_prefix r = p_prefix (cfp g) /\ session E g ops ctype life id sk creq (Some (code, 0%nat, in_t2 i)) ca' s' /\
    rs_status s' = ST_CHALLENGE /\ rs_cstatus s' = bs "need-code" /\ rs_tries s' = 3%Z /\ rs_fresh s' = (ri_now rj + sec life)%Z /\
    (exists cs, rq_cs r3 = Some cs /\ sec_get (bs "code") (cs_secrets cs) = Some code).
Proof.
  intros E g S ops ctype life id sk creq ca s ri rj i params code L CF CL SE B G SK T0 RN CK. pose proof L as [LA LE LH LS LC].
  destruct (session_linked E g S ops ctype life id sk creq None ca s L CF (fun _ => CL) SE) as [LK _].
  destruct (start_round E g S ops RT_NEW ctype life id sk creq ca s ri rj i params code LA LS CL LK B G SK T0 RN CK) as (ca1 & s1 & d & r3 & r & RD & Q1 & Q2 & _ & Q3).
  exists ca1, s1, d, r3, r. split; [exact RD|]. split; [exact Q1|]. split; [exact Q2|]. split; [eapply se_start; eassumption|exact Q3].
Qed.
Lemma pin_start : forall E g S (ops : store_ops S) id sk creq ca s ri rj i code, env_laws E -> config_fits g ->
  session E g ops (bs "pin") 3600 id sk creq None ca s -> gen_code (in_words i) = Ok code -> in_script_ok i = true -> (0 <= in_t2 i)%Z -> be_enc 8 (ri_iv ri) <> rnd_iv i -> clock_ok rj ->
  exists ca' s' d r, round E g ops ca s ri rj i (bs "pin") [] = Some (ca', [EUpdate r; EPut d; ECallback r], s') /\
    (exists cs, rq_cs r = Some cs /\ sec_get (bs "code") (cs_secrets cs) = Some code) /\
    session E g ops (bs "pin") 3600 id sk creq (Some (code, 0%nat, in_t2 i)) ca' s' /\
    rs_status s' = ST_CHALLENGE /\ rs_cstatus s' = bs "need-code" /\ rs_tries s' = 3%Z /\ rs_fresh s' = (ri_now rj + sec 3600)%Z.
Proof.
  intros E g S ops id sk creq ca s ri rj i code L CF SE G SK T0 RN CK.
  destruct (start_ok E g S ops _ 3600%Z id sk creq ca s ri rj i [] code L CF life_pin SE bw_pin G SK T0 RN CK) as (ca1 & s1 & d & r3 & r & RD & _ & _ & SE' & Q1 & Q2 & Q3 & Q4 & Q5).
  exists ca1, s1, d, r3. split; [exact RD|]. auto 10.
Qed.
Lemma email_start : forall E g S (ops : store_ops S) id sk creq ca s ri rj i addr code, env_laws E -> config_fits g ->
  session E g ops (bs "email") 300 id sk creq None ca s -> gen_code (in_words i) = Ok code -> in_script_ok i = true -> (0 <= in_t2 i)%Z -> be_enc 8 (ri_iv ri) <> rnd_iv i -> clock_ok rj ->
  blen addr < 2 ^ 30 ->
  exists ca' s' d r cmd, round E g ops ca s ri rj i (bs "email") [(bs "email", addr)] = Some (ca', [EEmail cmd; EUpdate r; EPut d; ECallback r], s') /\
    (cc_script (cf_chal g) <> [] -> ~ In x22 (cc_script (cf_chal g)) -> ~ In x20 (cc_script (cf_chal g)) -> ~ In x22 addr ->
     build_args cmd = Ok [cc_script (cf_chal g); addr; code; o_to_uri E (p_prefix (cfp g)); o_to_uri E (c_name creq)]) /\
    session E g ops (bs "email") 300 id sk creq (Some (code, 0%nat, in_t2 i)) ca' s' /\
    rs_status s' = ST_CHALLENGE /\ rs_cstatus s' = bs "need-code" /\ rs_tries s' = 3%Z /\ rs_fresh s' = (ri_now rj + sec 300)%Z.
Proof.
  intros E g S ops id sk creq ca s ri rj i addr code L CF SE G SK T0 RN CK B.
  destruct (start_ok E g S ops _ 300%Z id sk creq ca s ri rj i _ code L CF life_email SE (bw_email addr B) G SK T0 RN CK) as (ca1 & s1 & d & r3 & r & RD & R1 & R2 & SE' & Q1 & Q2 & Q3 & Q4 & _).
  exists ca1, s1, d, r3. eexists. split; [exact RD|]. split; [|auto 10]. intros N1 N2 N3 N4. rewrite (email_args E _ addr (in_words i) code r (laws_codec _ L) N1 N2 N3 N4 G), R1, R2. reflexivity.
Qed.
Lemma wrong_ok : forall E g S (ops : store_ops S) ctype life id sk creq code k t ca s ri rj i given, env_laws E -> config_fits g -> code_life ctype life ->
  session E g ops ctype life id sk creq (Some (code, k, t)) ca s -> given <> code -> blen given < 2 ^ 30 -> (t <= in_t1 i < t + sec life - 1000 /\ 0 <= in_t2 i)%Z -> clock_ok rj -> (k < 2)%nat ->
  exists ca' s' d r, round E g ops ca s ri rj i ctype [(bs "code", given)] = Some (ca', [EUpdate r; EPut d; ECallback r], s') /\
    session E g ops ctype life id sk creq (Some (code, Datatypes.S k, in_t2 i)) ca' s' /\ rs_status s' = ST_CHALLENGE /\ rs_cstatus s' = bs "wrong-code" /\ rs_tries s' = (2 - Z.of_nat k)%Z /\
    (ri_now rj <= rs_fresh s' <= ri_now rj + sec life)%Z.
Proof.
  intros E g S ops ctype life id sk creq code k t ca s ri rj i given L CF CL SE NE B TB CK K2. pose proof L as [LA LE LH LS LC].
  destruct (session_linked E g S ops ctype life id sk creq _ ca s L CF (fun _ => CL) SE) as [LK _].
  destruct (wrong_round E g S ops RT_NEW ctype life id sk creq code k t ca s ri rj i given LA LS CL LK NE B TB CK K2) as (ca1 & s1 & d & r3 & RD & _ & Q).
  exists ca1, s1, d, r3. split; [exact RD|]. split; [eapply se_wrong; eassumption|exact Q].
Qed.
Lemma right_ok : forall E g S (ops : store_ops S) ctype life id sk creq code k t ca s ri rj i, env_laws E -> config_fits g -> code_life ctype life ->
  session E g ops ctype life id sk creq (Some (code, k, t)) ca s -> (t <= in_t1 i < t + sec life - 1000)%Z -> clock_ok rj ->
  exists ca' s' c d r, round E g ops ca s ri rj i ctype [(bs "code", code)] = Some (ca', [EIssue c; EDelete id; EPut d; ECallback r], s') /\
    certifies E g creq c /\ public_key c = o_pub E sk /\ rs_status s' = ST_SUCCESS /\ rs_issued s' = c_name c /\ rs_fwd s' = p_fwd (cfp g) /\ pending ops ca' id = None.
Proof.
  intros E g S ops ctype life id sk creq code k t ca s ri rj i L CF CL SE TB CK. pose proof L as [LA LE LH LS LC].
  destruct (session_linked E g S ops ctype life id sk creq _ ca s L CF (fun _ => CL) SE) as [LK PC].
  exact (right_round E g S ops ctype life id sk creq code k t ca s ri rj i LA LS CF CL LK PC TB CK).
Qed.
Lemma tries_ok : forall E g S (ops : store_ops S) ctype life id sk creq code k t ca s, env_laws E -> config_fits g -> code_life ctype life ->
  session E g ops ctype life id sk creq (Some (code, k, t)) ca s -> (k <= 2)%nat.
Proof.
  intros E g S ops ctype life id sk creq code k t ca s L CF CL SE.
  destruct (session_linked E g S ops ctype life id sk creq _ ca s L CF (fun _ => CL) SE) as [LK _]. destruct (lk_req _ _ _ _ _ _ _ LK) as (r & _ & _ & _ & _ & _ & _ & _ & _ & _ & Q & _). exact Q.
Qed.
(** The possession challenge. *)
Lemma possession_lost : forall E g S (ops : store_ops S) life id sk creq ca s ri i t, env_laws E -> config_fits g ->
  session E g ops (bs "possession") life id sk creq None ca s -> wf_tlv t -> blen (enc_tlv t) < 2 ^ 30 ->
  exists x s' ca' d, (exists m s1, select_challenge s (bs "possession") = (Ok m, s1) /\ gen_challenge E s1 ri [(bs "issued-cert", enc_tlv t)] = (Ok x, s')) /\
    step E g ops ca (EvInterest i x) = Some (ca', [EDelete id; EPut d]) /\ error_reply E g x INVALID_PARAMETER d /\ pending ops ca' id = None /\
    forall rj, fst (on_challenge_response E s' rj d) = Exn.
Proof.
  intros E g S ops life id sk creq ca s ri i t L CF SE WT B. pose proof L as [LA LE LH LS LC].
  destruct (session_linked E g S ops _ life id sk creq None ca s L CF (fun Q => match Q eq_refl with end) SE) as [LK _].
  destruct (lk_req _ _ _ _ _ _ _ LK) as (r & P & CR & RT & K & DV & STR). pose proof STR as STR'. destruct STR' as (EV & SR & SS & SC).
  pose proof (lk_at _ _ _ _ _ _ _ LK) as A. destruct (pending_live E g S ops ca id r A P) as [ID LV]. destruct (lk_cert _ _ _ _ _ _ _ LK) as (cc & PC & PK).
  set (els := [Tlv T_SelectedChallenge (bs "Possession"); Tlv T_ParameterKey (bs "issued-cert"); Tlv T_ParameterValue (enc_tlv t)]).
  assert (W : Forall wf_tlv els) by (constructor; [wft; apply small_fits; vm_compute; reflexivity|]; constructor; [wft; apply small_fits; vm_compute; reflexivity|]; constructor; [wft; apply small_fits; unfold small_payload; lia|constructor]).
  assert (SZ2 : blen (enc_tlvs els) < 2 ^ 31).
  { unfold els. cbn [enc_tlvs]. rewrite !blen_app. pose proof (enc_tlv_len (Tlv T_SelectedChallenge (bs "Possession"))) as L1. pose proof (enc_tlv_len (Tlv T_ParameterKey (bs "issued-cert"))) as L2.
    pose proof (enc_tlv_len (Tlv T_ParameterValue (enc_tlv t))) as L3. cbn [t_val] in *. change (blen (bs "Possession")) with 10 in *. change (blen (bs "issued-cert")) with 11 in *. change (blen []) with 0. lia. }
  assert (AK : step_asks (bs "possession") (rs_status s) (rs_cstatus s) [bs "issued-cert"]) by (rewrite SS; constructor).
  assert (PY : step_payload (bs "possession") (rs_status s) (rs_cstatus s) [(bs "issued-cert", enc_tlv t)] els).
  { rewrite SS. apply (sp_credential _ _ t []). rewrite <- (app_nil_r (enc_tlv t)). apply dec_enc_elem, WT. }
  assert (SEL0 : selects els (bs "Possession")) by (eexists; split; reflexivity).
  destruct (send_linked E g S ops RT_NEW _ id sk creq None ca s ri _ els _ r (bs "Possession") LA LS LK P DV K STR AK PY W ltac:(discriminate) SZ2 SEL0) as (x & m & iv2 & SEL & GC & N & SB & OP & I2 & CT & RN2).
  assert (SB' : signed_by E x (public_key (rq_cert r))) by (rewrite CR, (lk_pk _ _ _ _ _ _ _ LK); exact SB).
  pose proof (chal_forward E g S ops ca i x id r els (bs "Possession") iv2 A N P SB' OP) as FW.
  change (handle_challenge E (cf_chal g) i (bs "Possession") els (set_div iv2 r)) with (@None hres) in FW. cbv iota in FW.
  unfold drop_error in FW. cbn [app] in FW. rewrite ID in FW. pose proof (ok_step E g S ops ca i x _ FW) as ST.
  assert (ER : error_reply E g x INVALID_PARAMETER (error_data E g (i_name x) INVALID_PARAMETER (bs "Unrecognized challenge type."))).
  { apply error_data_reply. split; [discriminate|]. split; [discriminate|unfold fits; vm_compute; reflexivity]. }
  eexists. eexists. eexists. eexists. split; [eexists; eexists; split; [exact SEL|exact GC]|]. split; [exact ST|]. split; [exact ER|]. split; [eapply (deleted_gone E g S ops _ _ _ _ id A ST); left; reflexivity|].
  intros rj. unfold on_challenge_response. cbn [upd_eiv upd_ctype rs_profile].
  match goal with |- context [check_reply E ?p ?d] => assert (CKR : check_reply E p d = Exn) end.
  { apply (proj1 (check_bad E _ cc _ PC)). right. exists INVALID_PARAMETER. split; [discriminate|]. apply decoded_error; [|discriminate]. destruct ER as (_ & _ & info & Q). rewrite Q. reflexivity. }
  rewrite CKR. reflexivity.
Qed.
Lemma unnamed_throws : forall E g S (ops : store_ops S) s i x id r params, ca_at E g ops s -> names_request g id x -> pending ops s id = Some r ->
  signed_by E x (public_key (rq_cert r)) -> acceptable E r x params -> get T_SelectedChallenge params = None -> on_interest E g ops s i x = ([], Exn).
Proof.
  intros E g S ops s i x id r params A N P SB (els & iv & tag & ct & pt & PE & G1 & G2 & G3 & L1 & L2 & D & LN & NE & SM & PP & F1 & F2 & CT) GS. pose proof (names_addressed g x id N) as AD.
  destruct (pending_live E g S ops s id r A P) as [ID LV].
  rewrite (on_interest_at E g S ops _ s i x AD). cbn [handle]. unfold on_challenge. rewrite (proj2 (challenge_id_names g x id AD) N).
  change (s_get ops (ca_store s) id) with (pending ops s id). rewrite P. rewrite (proj2 (verify_interest_iff E x (rq_cert r)) SB). cbn [negb].
  assert (V : dec_view (params_of x) = Some (t_val iv, t_val tag, t_val ct)) by (unfold dec_view; rewrite PE, G1, G2, G3; unfold blen; rewrite L1, L2; reflexivity).
  assert (F : fresh_for (t_val iv) (rq_div r) (rq_eiv r)).
  { split.
    - destruct F1 as [Q|Q]; [auto|]. destruct (live_eiv r LV) as [Z|Z]; [auto|]. right. unfold iv12 in Z. split; [lia|exact Q].
    - destruct F2 as [Q|[Q1 Q2]]; [auto|]. destruct (live_div r LV) as [Z|Z]; [auto|]. right. unfold iv12 in Z. split; [lia|]. split; [exact Q2|exact Q1]. }
  pose proof (decode_accepts E (rq_key r) (params_of x) (rq_id r) (rq_div r) (rq_eiv r) _ _ _ pt V F D LN) as DA.
  assert (U : exists dv, update_iv (t_val iv) (blen pt) = Ok dv).
  { unfold update_iv. rewrite blen12 by exact L1. rewrite aes_blocks_small by exact SM. change ((blen pt + 15) / 16) with (blocks16 pt). change (iv_counter (t_val iv)) with (ctr_part (t_val iv)).
    unfold u32_max. destruct (N.leb_spec (4294967295 - ctr_part (t_val iv)) (blocks16 pt)); [lia|eauto]. }
  destruct U as (dv & U). rewrite U in DA. rewrite DA. destruct pt as [|b pt]; [contradiction|]. rewrite PP, GS. reflexivity.
Qed.
Lemma proof_throws : forall E g S (ops : store_ops S) s i x id r params proof cstatus mine, ca_at E g ops s -> names_request g id x -> pending ops s id = Some r ->
  signed_by E x (public_key (rq_cert r)) -> step_payload (bs "possession") ST_CHALLENGE cstatus [(mine, proof)] params -> acceptable E r x params ->
  on_interest E g ops s i x = ([], Exn).
Proof.
  intros E g S ops s i x id r params proof cstatus mine A N P SB PY AC. apply (unnamed_throws E g S ops s i x id r params A N P SB AC). inversion PY; subst. reflexivity.
Qed.
Definition pin_wrong E g S ops id sk creq code k t ca s ri rj i given L CF := wrong_ok E g S ops (bs "pin") 3600 id sk creq code k t ca s ri rj i given L CF life_pin.
Definition pin_right E g S ops id sk creq code k t ca s ri rj i L CF := right_ok E g S ops (bs "pin") 3600 id sk creq code k t ca s ri rj i L CF life_pin.
Definition pin_tries E g S ops id sk creq code k t ca s L CF := tries_ok E g S ops (bs "pin") 3600 id sk creq code k t ca s L CF life_pin.
Definition email_wrong E g S ops id sk creq code k t ca s ri rj i given L CF := wrong_ok E g S ops (bs "email") 300 id sk creq code k t ca s ri rj i given L CF life_email.
Definition email_right E g S ops id sk creq code k t ca s ri rj i L CF := right_ok E g S ops (bs "email") 300 id sk creq code k t ca s ri rj i L CF life_email.
Definition email_tries E g S ops id sk creq code k t ca s L CF := tries_ok E g S ops (bs "email") 300 id sk creq code k t ca s L CF life_email.
