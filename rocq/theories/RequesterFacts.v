(** The requester on its own. *)
From Verif Require Import ChalProps RequestFacts ChallengeCodecFacts CryptoFacts EncoderFacts.
From Verif Require Export Spec_Requester.
Local Open Scope N_scope.

(** ** Profiles *)
Lemma info_cert : forall E l p p', info_loop E l p = Ok p' ->
  p_cert p' = p_cert p \/ exists c t, p_cert p' = Some c /\ In t l /\ t_type t = T_CaCertificate /\ carries_cert E t c.
Proof.
  intros E. induction l as [|t l IH]; intros p p' H; cbn [info_loop] in H; [injection H as <-; auto|].
  destruct (info_item E t p) as [p1| | |] eqn:IT; cbn [bind] in H; try discriminate.
  assert (X : p_cert p1 = p_cert p \/ exists c, p_cert p1 = Some c /\ t_type t = T_CaCertificate /\ carries_cert E t c).
  { unfold info_item in IT.
    destruct (t_type t =? T_CaPrefix).
    { destruct (parse (t_val t)) as [els|]; cbn [of_opt bind] in IT; try discriminate. destruct (get T_Name els) as [n|]; cbn [of_opt bind] in IT; try discriminate.
      destruct (name_decode n) as [nm|]; cbn [of_opt bind] in IT; try discriminate. injection IT as <-. auto. }
    destruct (t_type t =? T_CaInfo); [injection IT as <-; auto|].
    destruct (t_type t =? T_ParameterKey); [injection IT as <-; auto|].
    destruct (t_type t =? T_MaxValidityPeriod).
    { destruct (nni_dec (t_val t)) as [n|]; cbn [of_opt bind] in IT; try discriminate. injection IT as <-. auto. }
    destruct (N.eqb_spec (t_type t) T_CaCertificate) as [T|T].
    { destruct (parse (t_val t)) as [els|] eqn:P; cbn [of_opt bind] in IT; try discriminate. destruct (get T_Data els) as [d|] eqn:G; cbn [of_opt bind] in IT; try discriminate.
      destruct (cert_decode E d) as [c|] eqn:C; cbn [of_opt bind] in IT; try discriminate. injection IT as <-. right. exists c. split; [reflexivity|]. split; [exact T|]. exists els, d. auto. }
    destruct (is_critical (t_type t)); [discriminate|injection IT as <-; auto]. }
  destruct (IH p1 p' H) as [Q|(c & t' & A & B & C & D)].
  - destruct X as [X|(c & A & B & C)]; [left; congruence|right]. exists c, t. split; [congruence|]. split; [left; reflexivity|]. auto.
  - right. exists c, t'. split; [exact A|]. split; [right; exact B|]. auto.
Qed.
Lemma info_carries : forall E b p c, info_decode E b = Ok p -> p_cert p = Some c -> profile_carries E b c.
Proof.
  intros E b p c H C. unfold info_decode in H. destruct (parse b) as [els|] eqn:P; cbn [of_opt bind] in H; [|discriminate].
  apply info_cert in H as [Q|(c' & t & A & B & T & K)]; [rewrite Q in C; discriminate|]. exists els, t. split; [exact P|]. split; [exact B|]. split; [exact T|]. congruence.
Qed.
Lemma info_no_cert : forall E l p p', info_loop E l p = Ok p' -> p_cert p' = None -> forall t, In t l -> t_type t <> T_CaCertificate.
Proof.
  intros E. induction l as [|t l IH]; intros p p' H C t' IN; [destruct IN|]. cbn [info_loop] in H.
  destruct (info_item E t p) as [p1| | |] eqn:IT; cbn [bind] in H; try discriminate. destruct IN as [<-|IN]; [|exact (IH p1 p' H C t' IN)].
  intros T. assert (X : p_cert p1 <> None).
  { unfold info_item in IT. rewrite T in IT. change (T_CaCertificate =? T_CaPrefix) with false in IT. change (T_CaCertificate =? T_CaInfo) with false in IT.
    change (T_CaCertificate =? T_ParameterKey) with false in IT. change (T_CaCertificate =? T_MaxValidityPeriod) with false in IT. change (T_CaCertificate =? T_CaCertificate) with true in IT. cbv iota in IT.
    destruct (parse (t_val t)) as [els|] eqn:P; cbn [of_opt bind] in IT; try discriminate. destruct (get T_Data els) as [d|] eqn:G; cbn [of_opt bind] in IT; try discriminate.
    destruct (cert_decode E d) as [c|] eqn:CD; cbn [of_opt bind] in IT; try discriminate. injection IT as <-. discriminate. }
  clear IT T. revert p1 H X. clear IH. induction l as [|a l IH]; intros p1 H X; cbn [info_loop] in H; [injection H as ->; contradiction|].
  destruct (info_item E a p1) as [p2| | |] eqn:IT; cbn [bind] in H; try discriminate. apply (IH p2 H). clear H IH.
  unfold info_item in IT. destruct (t_type a =? T_CaPrefix).
  { destruct (parse (t_val a)) as [els|]; cbn [of_opt bind] in IT; try discriminate. destruct (get T_Name els) as [n|]; cbn [of_opt bind] in IT; try discriminate.
    destruct (name_decode n) as [nm|]; cbn [of_opt bind] in IT; try discriminate. injection IT as <-. exact X. }
  destruct (t_type a =? T_CaInfo); [injection IT as <-; exact X|].
  destruct (t_type a =? T_ParameterKey); [injection IT as <-; exact X|].
  destruct (t_type a =? T_MaxValidityPeriod).
  { destruct (nni_dec (t_val a)) as [n|]; cbn [of_opt bind] in IT; try discriminate. injection IT as <-. exact X. }
  destruct (t_type a =? T_CaCertificate).
  { destruct (parse (t_val a)) as [els|] eqn:P; cbn [of_opt bind] in IT; try discriminate. destruct (get T_Data els) as [d|] eqn:G; cbn [of_opt bind] in IT; try discriminate.
    destruct (cert_decode E d) as [c|] eqn:CD; cbn [of_opt bind] in IT; try discriminate. injection IT as <-. discriminate. }
  destruct (is_critical (t_type a)); [discriminate|injection IT as <-; exact X].
Qed.
Lemma info_item_safe : forall E t p, info_item E t p <> UB /\ info_item E t p <> Hang.
Proof.
  intros E t p. unfold info_item.
  destruct (t_type t =? T_CaPrefix).
  { destruct (parse (t_val t)) as [els|]; cbn [of_opt bind]; [|split; discriminate]. destruct (get T_Name els) as [n|]; cbn [of_opt bind]; [|split; discriminate].
    destruct (name_decode n) as [nm|]; cbn [of_opt bind]; split; discriminate. }
  destruct (t_type t =? T_CaInfo); [split; discriminate|]. destruct (t_type t =? T_ParameterKey); [split; discriminate|].
  destruct (t_type t =? T_MaxValidityPeriod); [destruct (nni_dec (t_val t)); cbn [of_opt bind]; split; discriminate|].
  destruct (t_type t =? T_CaCertificate).
  { destruct (parse (t_val t)) as [els|]; cbn [of_opt bind]; [|split; discriminate]. destruct (get T_Data els) as [d|]; cbn [of_opt bind]; [|split; discriminate].
    destruct (cert_decode E d); cbn [of_opt bind]; split; discriminate. }
  destruct (is_critical (t_type t)); split; discriminate.
Qed.
Lemma info_safe : forall E b, info_decode E b <> UB /\ info_decode E b <> Hang.
Proof.
  intros E b. unfold info_decode. destruct (parse b) as [els|]; cbn [of_opt bind]; [|split; discriminate].
  generalize empty_profile. induction els as [|t l IH]; intros p; cbn [info_loop]; [split; discriminate|].
  destruct (info_item_safe E t p) as [A B]. destruct (info_item E t p) as [p1| | |]; cbn [bind]; [apply IH|split; discriminate|contradiction|contradiction].
Qed.

Lemma profile_accepted : forall E d p, on_profile E d = Ok p ->
  info_decode E (d_content d) = Ok p /\ exists c, p_cert p = Some c /\ profile_carries E (d_content d) c /\ data_verifies E d c.
Proof.
  intros E d p H. unfold on_profile in H. destruct (info_decode E (d_content d)) as [q| | |] eqn:I; cbn [bind] in H; try discriminate.
  destruct (p_cert q) as [c|] eqn:C; [|discriminate]. destruct (verify_data E d c) eqn:V; [|discriminate]. injection H as ->.
  split; [reflexivity|]. exists c. split; [exact C|]. split; [exact (info_carries _ _ _ _ I C)|exact V].
Qed.
Lemma carried_again : forall E b c, codec_laws E -> profile_carries E b c -> cert_decode E (cert_tlv E c) = Some c.
Proof.
  intros E b c L (els & t & _ & _ & _ & inner & d & _ & _ & D). unfold cert_decode in *. destruct (data_decode E d) as [c'|] eqn:DD; [|discriminate].
  destruct (cert_ok c') eqn:K; [|discriminate]. injection D as ->. unfold data_decode in *. destruct (t_type d =? T_Data); [|discriminate].
  change (t_type (cert_tlv E c) =? T_Data) with true. cbv iota. cbn [cert_tlv t_val]. rewrite (l_cert_codec E L c (l_cert_wf E L _ _ DD)), K. reflexivity.
Qed.
Lemma profile_redirected : forall E d full p, codec_laws E -> on_profile_redirected E d full = Ok p ->
  on_profile E d = Ok p /\ exists c, p_cert p = Some c /\ profile_carries E (d_content d) c /\ data_verifies E d c /\ full_name E c = full.
Proof.
  intros E d full p L H. unfold on_profile_redirected in H. destruct (info_decode E (d_content d)) as [q| | |] eqn:I; cbn [bind] in H; try discriminate.
  destruct (p_cert q) as [c|] eqn:C; [|discriminate]. pose proof (info_carries _ _ _ _ I C) as CA. rewrite (carried_again _ _ _ L CA) in H. cbn [of_opt bind] in H.
  destruct (name_eqb (full_name E c) full) eqn:N; [|discriminate]. apply name_eqb_eq in N. split; [exact H|].
  destruct (profile_accepted _ _ _ H) as (I2 & c2 & C2 & CA2 & V2). assert (q = p) as -> by congruence. exists c2. split; [exact C2|]. split; [exact CA2|]. split; [exact V2|]. congruence.
Qed.
(** The outcome for any packet. *)
Lemma profile_outcomes : forall E d, on_profile E d <> Hang /\
  (on_profile E d = UB -> exists els, parse (d_content d) = Some els /\ forall t, In t els -> t_type t <> T_CaCertificate).
Proof.
  intros E d. unfold on_profile. destruct (info_safe E (d_content d)) as [A B]. destruct (info_decode E (d_content d)) as [q| | |] eqn:I; cbn [bind]; try contradiction; [|split; discriminate].
  destruct (p_cert q) as [c|] eqn:C; [destruct (verify_data E d c); split; discriminate|]. split; [discriminate|]. intros _.
  unfold info_decode in I. destruct (parse (d_content d)) as [els|]; cbn [of_opt bind] in I; [|discriminate]. exists els. split; [reflexivity|]. exact (info_no_cert _ _ _ _ I C).
Qed.
Lemma own_profile : forall E g v d, codec_laws E -> sig_laws E -> profile_data E g None v = Ok d -> public_key (cf_cert g) = o_pub E (cf_sk g) ->
  name_fits (p_prefix (cfp g)) -> fits (p_info (cfp g)) -> Forall fits (p_probe_keys (cfp g)) ->
  (forall k, c_keyloc (cf_cert g) = Some k -> fits (bs "Issued by " ++ o_to_uri E k)) ->
  (- 2 ^ 63 <= p_maxvalid (cfp g) < 2 ^ 63)%Z -> wf_cert (cf_cert g) -> cert_ok (cf_cert g) = true -> fits (enc_tlv (cert_tlv E (cf_cert g))) ->
  exists p, on_profile E d = Ok p /\ on_profile_redirected E d (full_name E (cf_cert g)) = Ok p /\ p_prefix p = p_prefix (cfp g) /\ p_cert p = Some (cf_cert g) /\
    p_maxvalid p = p_maxvalid (cfp g) /\ p_probe_keys p = p_probe_keys (cfp g).
Proof.
  intros E g v d L SL H PK F1 F2 F3 F4 F5 W K F6. unfold profile_data in H. destruct (info_encode E (cfp g) (cf_cert g)) as [content| | |] eqn:I; cbn [bind] in H; try discriminate. injection H as <-.
  destruct (info_roundtrip E (cfp g) (cf_cert g) content L F1 F2 F3 F4 F5 W K F6 I) as (info & D & _).
  set (dd := mk_data _ _ _ _ _ _). assert (V : verify_data E dd (cf_cert g) = true).
  { unfold verify_data. rewrite PK. apply (l_sign_verify E SL). }
  assert (OP : on_profile E dd = Ok (Profile (p_prefix (cfp g)) [] info (p_probe_keys (cfp g)) (p_maxvalid (cfp g)) None [] (Some (cf_cert g)))).
  { unfold on_profile. change (d_content dd) with content. rewrite D. cbn [bind p_cert]. rewrite V. reflexivity. }
  eexists. split; [exact OP|]. split; [|repeat split].
  unfold on_profile_redirected. change (d_content dd) with content. rewrite D. cbn [bind p_cert]. rewrite (cert_decode_tlv E _ L W K). cbn [of_opt bind]. rewrite name_eqb_refl. exact OP.
Qed.

(** ** Replies that must not be acted on *)
Lemma err_loop_ok : forall all t s0, get T_ErrorCode all = Some t -> nni_dec (t_val t) <> None -> get T_ErrorInfo all = Some s0 ->
  forall l st, exists st', err_loop all l st = Ok st'.
Proof.
  intros all t s0 G N GI. induction l as [|a l IH]; intros [[[[e s] cc] ic] oc]; cbn [err_loop]; [eauto|].
  destruct (t_type a =? T_ErrorCode); [rewrite G; cbn [of_opt bind]; destruct (nni_dec (t_val t)); [cbn [of_opt bind]; apply IH|contradiction]|].
  destruct (t_type a =? T_ErrorInfo); [rewrite GI; cbn [of_opt bind]; apply IH|]. destruct (is_critical (t_type a)); apply IH.
Qed.
Lemma count1_get : forall ty els t, count ty els = 1%nat -> In t els -> t_type t = ty -> get ty els = Some t.
Proof.
  induction els as [|a els IH]; intros t C IN T; [destruct IN|]. rewrite count_cons in C. cbn [get]. destruct (N.eqb_spec (t_type a) ty) as [Q|Q].
  - destruct IN as [->|IN]; [reflexivity|]. exfalso. injection C as C. unfold count in C. apply length_zero_iff_nil in C.
    assert (X : In t (filter (fun t => t_type t =? ty) els)) by (apply filter_In; split; [exact IN|apply N.eqb_eq, T]). rewrite C in X. destruct X.
  - destruct IN as [->|IN]; [contradiction|]. apply IH; assumption.
Qed.
Lemma error_decoded : forall b code, error_content b code -> fst (err_decode b) = code.
Proof.
  intros b code (els & t & P & C1 & C2 & K & IN & T & N). pose proof (count1_get _ _ _ C1 IN T) as G.
  destruct (count_pos_get T_ErrorInfo els ltac:(lia)) as (s0 & GI).
  destruct (err_loop_ok els t s0 G ltac:(congruence) GI els (NO_ERROR, [], O, O, O)) as ([[[[e s] cc] ic] oc] & L).
  destruct (err_loop_spec _ _ _ _ _ _ _ _ _ _ _ _ L) as (A & B & C & D & _). apply crit_others_0 in K. rewrite C1 in D. cbn [Nat.eqb] in D. destruct D as (t' & G' & N').
  unfold err_decode, err_body. rewrite P. cbn [of_opt bind]. rewrite L. cbn [bind]. rewrite A, B, C, C1, C2, K. cbn [Nat.add Nat.eqb andb negb orb Nat.ltb Nat.leb fst]. congruence.
Qed.
Lemma decoded_error : forall b code, fst (err_decode b) = code -> code <> NO_ERROR -> error_content b code.
Proof.
  intros b code H N. destruct (err_decode b) as [code' info] eqn:D. cbn [fst] in H. subst code'.
  destruct (err_decode_only_if _ _ _ D (or_introl N)) as (els & c & s & P & C1 & C2 & K & I1 & I2 & T1 & T2 & ND & _). exists els, c. auto 10.
Qed.
Lemma check_bad : forall E p c d, p_cert p = Some c -> (check_reply E p d = Exn <-> bad_reply E c d) /\ (check_reply E p d = Ok tt <-> ~ bad_reply E c d).
Proof.
  intros E p c d C. unfold check_reply, process_if_error. rewrite C. unfold bad_reply, data_verifies. change (o_verify E (public_key c) (data_msg d) (d_sig d)) with (verify_data E d c).
  destruct (verify_data E d c).
  - destruct (N.eqb_spec (fst (err_decode (d_content d))) NO_ERROR) as [Q|Q].
    + assert (X : ~ (~ true = true \/ exists code, code <> NO_ERROR /\ error_content (d_content d) code)).
      { intros [X|(code & N & X)]; [apply X; reflexivity|]. apply N. rewrite <- (error_decoded _ _ X). exact Q. }
      split; split; intros H; try discriminate; try reflexivity; try contradiction; exact X.
    + assert (X : ~ true = true \/ exists code, code <> NO_ERROR /\ error_content (d_content d) code).
      { right. eexists. split; [exact Q|]. apply decoded_error; [reflexivity|exact Q]. }
      split; split; intros H; try discriminate; try reflexivity; try contradiction; exact X.
  - assert (X : ~ false = true \/ exists code, code <> NO_ERROR /\ error_content (d_content d) code) by (left; discriminate).
    split; split; intros H; try discriminate; try reflexivity; try contradiction; exact X.
Qed.
Lemma bad_rejected : forall E s ri d c, p_cert (rs_profile s) = Some c -> bad_reply E c d ->
  on_new_response E s ri d = (Exn, s) /\ on_challenge_response E s ri d = (Exn, s) /\ on_probe_response E d (rs_profile s) = Exn.
Proof.
  intros E s ri d c C B. apply (proj1 (check_bad E _ c d C)) in B. unfold on_new_response, on_challenge_response, on_probe_response. rewrite B. auto.
Qed.
Lemma accepted_good : forall E s ri d c, p_cert (rs_profile s) = Some c ->
  (exists chals s', on_new_response E s ri d = (Ok chals, s')) \/ (exists s', on_challenge_response E s ri d = (Ok tt, s')) \/ (exists r, on_probe_response E d (rs_profile s) = Ok r) ->
  data_verifies E d c /\ forall code, error_content (d_content d) code -> code = NO_ERROR.
Proof.
  intros E s ri d c C H. assert (CK : check_reply E (rs_profile s) d = Ok tt).
  { unfold on_new_response, on_challenge_response, on_probe_response in H. destruct (check_reply E (rs_profile s) d) as [[]| | |]; [reflexivity|..];
    destruct H as [(a & b & H)|[(a & H)|(a & H)]]; discriminate. }
  apply (proj2 (check_bad E _ c d C)) in CK. unfold bad_reply in CK. split.
  - unfold data_verifies in *. destruct (o_verify E (public_key c) (data_msg d) (d_sig d)); [reflexivity|]. exfalso. apply CK. left. discriminate.
  - intros code X. destruct (N.eq_dec code NO_ERROR) as [Q|Q]; [exact Q|]. exfalso. apply CK. right. eauto.
Qed.

(** ** What a reply changes *)
Lemma same_refl : forall s, same_session s s.
Proof. intros s. unfold same_session. auto 12. Qed.
Lemma same_trans : forall a b c, same_session a b -> same_session b c -> same_session a c.
Proof. unfold same_session. intros a b c (A1 & A2 & A3 & A4 & A5 & A6 & A7 & A8 & A9) (B1 & B2 & B3 & B4 & B5 & B6 & B7 & B8 & B9). repeat split; congruence. Qed.
Ltac kept := unfold same_session; cbn; repeat split.
Lemma chal_loop_kept : forall now all l n ns s o s', chal_loop now all l n ns s = (o, s') -> same_session s s'.
Proof.
  intros now all. induction l as [|t l IH]; intros n ns s o s' H; cbn [chal_loop] in H; [injection H as _ <-; apply same_refl|].
  repeat (match type of H with
          | context [if ?b then _ else _] => destruct b
          | context [match ?x with Some _ => _ | None => _ end] => destruct x
          | context [match ?x with Ok _ => _ | Exn => _ | UB => _ | Hang => _ end] => destruct x
          end); try (injection H as _ <-; apply same_refl); eapply same_trans; try (eapply IH; exact H); kept.
Qed.
Lemma chal_decode_kept : forall E now b s o s', chal_decode E now b s = (o, s') -> same_session s s'.
Proof.
  intros E now b s o s' H. unfold chal_decode in H. destruct (decode_aes _ _ _ _ _ _) as [r iv]. assert (X : same_session s (upd_div iv s)) by kept.
  destruct r as [pt| | |]; try (injection H as _ <-; exact X). destruct (parse pt) as [els|]; [|injection H as _ <-; exact X].
  destruct (chal_loop now els els false O (upd_div iv s)) as [r s2] eqn:L. apply chal_loop_kept in L.
  assert (s' = s2) as -> by (destruct r; injection H as _ <-; reflexivity). eapply same_trans; eassumption.
Qed.
Lemma challenge_kept : forall E s ri d o s', on_challenge_response E s ri d = (o, s') -> same_session s s'.
Proof.
  intros E s ri d o s' H. unfold on_challenge_response in H. destruct (check_reply E (rs_profile s) d); try (injection H as _ <-; apply same_refl). exact (chal_decode_kept _ _ _ _ _ _ H).
Qed.
Lemma upd_id_self : forall s, upd_id (rs_id s) s = s.
Proof. destruct s; reflexivity. Qed.
Lemma new_kept : forall E s ri d o s', on_new_response E s ri d = (o, s') ->
  (fails o -> same_but_id s s') /\ (forall chals, o = Ok chals -> s' = upd_key (rs_key s') (upd_id (rs_id s') s)).
Proof.
  intros E s ri d o s' H. unfold on_new_response in H. unfold same_but_id.
  destruct (check_reply E (rs_profile s) d); try (injection H as <- <-; split; [rewrite upd_id_self; reflexivity|discriminate]).
  destruct (reply_decode _ _ _) as [r rp]. destruct r; try (injection H as <- <-; split; [reflexivity|discriminate]).
  destruct (do secret <- _; _) as [key| | |]; injection H as <- <-; (split; [intros F; try reflexivity|try discriminate]).
  - destruct (F _ eq_refl).
  - reflexivity.
Qed.

(** ** The Interests the requester sends *)
Lemma get_neg_2 : forall n c, get_neg 2 n = Some c -> exists a b, n = a ++ [c; b].
Proof.
  intros n c H. unfold get_neg in H. destruct (Nat.leb_spec 2 (length n)) as [L|L]; [|discriminate].
  apply nth_error_split in H as (l1 & l2 & -> & L1). rewrite app_length in *. cbn [length] in *. destruct l2 as [|b [|b2 l2]]; cbn [length] in *; [lia| |lia]. eauto.
Qed.
Lemma key_under_iff : forall prefix kn, key_under prefix kn <-> is_prefix prefix kn = true /\ get_neg 2 kn = Some c_KEY.
Proof.
  intros prefix kn. unfold key_under, begins. rewrite is_prefix_iff. split.
  - intros (B & identity & kid & ->). split; [exact B|]. exact (get_neg_app identity [c_KEY; kid] ltac:(cbn; lia)).
  - intros (B & G). split; [exact B|]. apply get_neg_2 in G as (a & b & ->). exists a, b. reflexivity.
Qed.
Lemma request_wf : forall E sk ri kn nb na nb' na', wf_name kn -> wf_name (ri_kloc ri) -> mk_validity nb na = (nb', na') -> (0 <= nb' < 2 ^ 63)%Z -> (0 <= na' < 2 ^ 63)%Z ->
  wf_cert (cert_request E sk ri kn nb na).
Proof.
  intros E sk ri kn nb na nb' na' W1 W2 MV R1 R2. unfold wf_cert, cert_request. cbn [c_name c_keyloc c_validity]. split.
  - apply wf_name_app; [exact W1|]. constructor; [wft; reflexivity|]. constructor; [wft; apply fits_nni|constructor].
  - split; [intros n Q; injection Q as <-; exact W2|]. intros a b Q. rewrite MV in Q. injection Q as <- <-. unfold mk_validity in MV. injection MV as M1 M2.
    split; [rewrite <- M1|split; [rewrite <- M2|auto]].
    + unfold sec. rewrite !Z.mul_1_l. apply Z_mod_mult.
    + unfold sec. rewrite !Z.mul_1_l. apply Z_mod_mult.
Qed.
Lemma request_ok : forall E sk ri kn nb na, sig_laws E -> (exists identity kid, kn = identity ++ [gc (bs "KEY"); kid]) -> cert_ok (cert_request E sk ri kn nb na) = true.
Proof.
  intros E sk ri kn nb na SL (identity & kid & ->). unfold cert_ok, cert_request. cbn [c_name c_iskey c_content]. rewrite <- app_assoc. cbn [app].
  change (gc (bs "KEY")) with c_KEY. rewrite valid_cert_name_of_shape. pose proof (l_pub_nonempty E SL sk). destruct (o_pub E sk); [contradiction|reflexivity].
Qed.
Lemma sent_unsigned : forall E prefix rest params, sent_to prefix rest (unsigned_interest E (prefix ++ r_CA :: rest) params).
Proof.
  intros E prefix rest params. exists (digest_comp E params). split; [reflexivity|]. unfold unsigned_interest. cbn [i_name]. rewrite <- app_assoc. reflexivity.
Qed.
Lemma sent_signed : forall E sk prefix rest params, sent_to prefix rest (signed_interest E sk (prefix ++ r_CA :: rest) params).
Proof.
  intros E sk prefix rest params. exists (digest_comp E params). split; [reflexivity|]. unfold signed_interest. cbn [i_name]. rewrite <- app_assoc. reflexivity.
Qed.
Lemma signed_signed : forall E sk n params, sig_laws E -> signed_by E (signed_interest E sk n params) (o_pub E sk).
Proof. intros E sk n params SL. eexists. split; [reflexivity|]. apply (l_sign_verify E SL). Qed.

Lemma carries_encoded : forall E rt ecdh c x, codec_laws E -> rt = RT_NEW \/ rt = RT_REVOKE -> fits ecdh -> wf_cert c -> cert_ok c = true -> fits (enc_tlv (cert_tlv E c)) ->
  i_params x = Some (req_encode E rt ecdh c) -> carries E rt x ecdh c.
Proof.
  intros E rt ecdh c x L R F W K F2 P. pose proof (req_roundtrip E rt ecdh c L R F W K F2) as D. unfold carries, params_of. rewrite P.
  destruct R as [-> | ->]; [exists T_CertRequest; assert (CT : cert_type RT_NEW T_CertRequest) by (left; split; reflexivity)|exists T_CertToRevoke; assert (CT : cert_type RT_REVOKE T_CertToRevoke) by (right; split; reflexivity)];
    (split; [exact CT|apply (req_decode_iff E _ _ _ _ _ CT), D]).
Qed.
Lemma gen_new_eq : forall E s ri kn sk nb na identity kid, key_under (p_prefix (rs_profile s)) kn -> kn = identity ++ [gc (bs "KEY"); kid] ->
  gen_new E s ri kn sk nb na =
  (Ok (Some (signed_interest E sk (p_prefix (rs_profile s) ++ [r_CA; gc (bs "NEW")]) (req_encode E RT_NEW (o_ecdh_pub E (rs_ecdh s)) (cert_request E sk ri kn nb na)))),
   upd_keypair (Some (kn, sk)) (upd_identity identity s)).
Proof.
  intros E s ri kn sk nb na identity kid KU KN. apply key_under_iff in KU as [B G]. unfold gen_new. rewrite B, G. cbn [negb]. rewrite comp_eqb_refl.
  assert (PN : prefix_neg 2 kn = identity) by (rewrite KN; exact (prefix_neg_app identity [gc (bs "KEY"); kid])). rewrite PN.
  destruct kn as [|a l]; [destruct identity; discriminate|reflexivity].
Qed.
Lemma new_interest : forall E s ri kn sk nb na nb' na', codec_laws E -> sig_laws E -> key_under (p_prefix (rs_profile s)) kn ->
  fits (o_ecdh_pub E (rs_ecdh s)) -> wf_name kn -> wf_name (ri_kloc ri) -> mk_validity nb na = (nb', na') -> (0 <= nb' < 2 ^ 63)%Z -> (0 <= na' < 2 ^ 63)%Z ->
  fits (enc_tlv (cert_tlv E (cert_request E sk ri kn nb na))) ->
  exists x c s' identity kid, gen_new E s ri kn sk nb na = (Ok (Some x), s') /\ sent_to (p_prefix (rs_profile s)) [gc (bs "NEW")] x /\ signed_by E x (o_pub E sk) /\
    carries E RT_NEW x (o_ecdh_pub E (rs_ecdh s)) c /\
    c_name c = kn ++ [gc (bs "cert-request"); version_comp (ri_version ri)] /\ public_key c = o_pub E sk /\ cert_signed_by E c (o_pub E sk) /\ c_validity c = Some (nb', na') /\
    kn = identity ++ [gc (bs "KEY"); kid] /\ s' = upd_keypair (Some (kn, sk)) (upd_identity identity s).
Proof.
  intros E s ri kn sk nb na nb' na' L SL KU FE W1 W2 MV R1 R2 FC. pose proof KU as KU'. destruct KU as (_ & identity & kid & KN).
  rewrite (gen_new_eq E s ri kn sk nb na identity kid KU' KN). eexists. exists (cert_request E sk ri kn nb na). eexists. exists identity, kid. split; [reflexivity|].
  split; [exact (sent_signed _ _ _ [gc (bs "NEW")] _)|]. split; [apply signed_signed, SL|].
  split; [apply carries_encoded; auto; [eapply request_wf; eassumption|apply request_ok; eauto]|].
  split; [reflexivity|]. split; [reflexivity|]. split; [apply (l_sign_verify E SL)|]. split; [unfold cert_request; cbn [c_validity]; rewrite MV; reflexivity|]. split; [exact KN|reflexivity].
Qed.
Lemma new_refused : forall E s ri kn sk nb na, ~ key_under (p_prefix (rs_profile s)) kn ->
  gen_new E s ri kn sk nb na = (Ok None, s) \/ (begins (p_prefix (rs_profile s)) kn /\ gen_new E s ri kn sk nb na = (Exn, s)).
Proof.
  intros E s ri kn sk nb na N. rewrite key_under_iff in N. unfold gen_new, begins. rewrite <- is_prefix_iff. destruct (is_prefix (p_prefix (rs_profile s)) kn); cbn [negb]; [|auto].
  destruct kn as [|a l]; [auto|]. right. split; [reflexivity|]. destruct (get_neg 2 (a :: l)) as [k|]; [|reflexivity]. destruct (comp_eqb k c_KEY) eqn:Q; [|reflexivity].
  apply comp_eqb_eq in Q. subst k. destruct N. auto.
Qed.
Lemma revoke_interest : forall E s c, codec_laws E ->
  (begins (p_prefix (rs_profile s)) (c_name c) -> exists x, gen_revoke E s c = Some x /\ sent_to (p_prefix (rs_profile s)) [gc (bs "REVOKE")] x /\ i_sig x = None /\
     (fits (o_ecdh_pub E (rs_ecdh s)) -> wf_cert c -> cert_ok c = true -> fits (enc_tlv (cert_tlv E c)) -> carries E RT_REVOKE x (o_ecdh_pub E (rs_ecdh s)) c)) /\
  (~ begins (p_prefix (rs_profile s)) (c_name c) -> gen_revoke E s c = None).
Proof.
  intros E s c L. unfold gen_revoke, begins. rewrite <- is_prefix_iff. destruct (is_prefix (p_prefix (rs_profile s)) (c_name c)); cbn [negb]; split; intros H; try reflexivity; try discriminate; [|destruct (H eq_refl)].
  eexists. split; [reflexivity|]. split; [exact (sent_unsigned _ _ [gc (bs "REVOKE")] _)|]. split; [reflexivity|]. intros F W K F2. apply carries_encoded; auto.
Qed.

(** ** CHALLENGE Interests *)
Lemma one_param_iff : forall ty key params els, one_param ty key params = Ok els <-> exists v, params = [(key, v)] /\ els = [Tlv T_SelectedChallenge ty; Tlv T_ParameterKey key; Tlv T_ParameterValue v].
Proof.
  intros ty key params els. unfold one_param. split.
  - destruct params as [|[k v] [|]]; try discriminate. destruct (bytes_eqb k key) eqn:Q; [|discriminate]. apply bytes_eqb_eq in Q. subst k. intros H. injection H as <-. eauto.
  - intros (v & -> & ->). rewrite bytes_eqb_refl. reflexivity.
Qed.
Lemma one_param_safe : forall ty key params, one_param ty key params <> UB /\ one_param ty key params <> Hang.
Proof. intros. unfold one_param. destruct params as [|[k v] [|]]; try (split; discriminate). destruct (bytes_eqb k key); split; discriminate. Qed.
Lemma wants_iff : forall c, bytes_eqb c NEED_CODE || bytes_eqb c WRONG_CODE = true <-> wants c.
Proof. intros c. rewrite orb_true_iff, !bytes_eqb_eq. reflexivity. Qed.
Lemma step_payload_iff : forall ty st cst params els, gen_challenge_tlv ty st cst params = Some (Ok els) <-> step_payload ty st cst params els.
Proof.
  intros ty st cst params els. split.
  - intros H. unfold gen_challenge_tlv in H. destruct (bytes_eqb ty CH_PIN) eqn:T1.
    { apply bytes_eqb_eq in T1. subst ty. injection H as H. destruct (N.eqb_spec st ST_BEFORE) as [->|N1]; [injection H as <-; apply sp_pin|].
      destruct (N.eqb_spec st ST_CHALLENGE) as [->|N2]; [|discriminate]. destruct (bytes_eqb cst NEED_CODE || bytes_eqb cst WRONG_CODE) eqn:W; [|discriminate]. apply wants_iff in W. cbn [andb] in H.
      apply one_param_iff in H as (v & -> & ->). apply sp_pin_code, W. }
    destruct (bytes_eqb ty CH_EMAIL) eqn:T2.
    { apply bytes_eqb_eq in T2. subst ty. injection H as H. destruct (N.eqb_spec st ST_BEFORE) as [->|N1]; [apply one_param_iff in H as (v & -> & ->); apply sp_email|].
      destruct (N.eqb_spec st ST_CHALLENGE) as [->|N2]; [|discriminate]. destruct (bytes_eqb cst NEED_CODE || bytes_eqb cst WRONG_CODE) eqn:W; [|discriminate]. apply wants_iff in W. cbn [andb] in H.
      apply one_param_iff in H as (v & -> & ->). apply sp_email_code, W. }
    destruct (bytes_eqb ty CH_POSSESSION) eqn:T3; [|discriminate]. apply bytes_eqb_eq in T3. subst ty. injection H as H. destruct (N.eqb_spec st ST_BEFORE) as [->|N1].
    { destruct params as [|[k v] [|]]; try discriminate. destruct (bytes_eqb k K_CRED) eqn:Q; [|discriminate]. apply bytes_eqb_eq in Q. subst k.
      destruct (dec_elem v) as [[t rest]|] eqn:D; cbn [of_opt bind] in H; [|discriminate]. injection H as <-. exact (sp_credential _ _ _ _ D). }
    destruct (N.eqb_spec st ST_CHALLENGE) as [->|N2]; [|discriminate]. destruct (bytes_eqb cst NEED_PROOF) eqn:W; [|discriminate]. apply bytes_eqb_eq in W. subst cst. cbn [andb] in H.
    destruct params as [|[k v] [|]]; try discriminate. destruct (bytes_eqb k K_PROOF) eqn:Q; [|discriminate]. apply bytes_eqb_eq in Q. subst k. injection H as <-. apply sp_proof.
  - intros H. destruct H as [cst params|cst code W|cst addr|cst code W|cst w t rest D|proof]; try reflexivity.
    + destruct W as [->| ->]; reflexivity.
    + destruct W as [->| ->]; reflexivity.
    + unfold gen_challenge_tlv. change (bytes_eqb (bs "possession") CH_PIN) with false. change (bytes_eqb (bs "possession") CH_EMAIL) with false. change (bytes_eqb (bs "possession") CH_POSSESSION) with true.
      change (bytes_eqb (bs "issued-cert") K_CRED) with true. change (ST_BEFORE =? ST_BEFORE) with true. cbv iota. rewrite D. reflexivity.
Qed.
Lemma gen_tlv_safe : forall ty st cst params, gen_challenge_tlv ty st cst params <> Some UB /\ gen_challenge_tlv ty st cst params <> Some Hang.
Proof.
  intros ty st cst params. unfold gen_challenge_tlv. assert (Q : forall a b, (a : res (list tlv)) = b -> Some a = Some b) by congruence.
  destruct (bytes_eqb ty CH_PIN); [|destruct (bytes_eqb ty CH_EMAIL); [|destruct (bytes_eqb ty CH_POSSESSION); [|split; discriminate]]].
  - destruct (st =? ST_BEFORE); [split; discriminate|]. destruct (_ && _); [|split; discriminate]. destruct (one_param_safe CH_PIN K_CODE params). split; congruence.
  - destruct (st =? ST_BEFORE); [destruct (one_param_safe CH_EMAIL K_EMAIL params); split; congruence|]. destruct (_ && _); [|split; discriminate]. destruct (one_param_safe CH_EMAIL K_CODE params). split; congruence.
  - destruct (st =? ST_BEFORE).
    + destruct params as [|[k v] [|]]; try (split; discriminate). destruct (bytes_eqb k K_CRED); [|split; discriminate]. destruct (dec_elem v); cbn [of_opt bind]; split; discriminate.
    + destruct (_ && _); [|split; discriminate]. destruct params as [|[k v] [|]]; try (split; discriminate). destruct (bytes_eqb k K_PROOF); split; discriminate.
Qed.

Lemma initial_room : forall iv rnd, iv_sound iv -> length rnd = 8%nat -> ctr_part (initial_iv iv rnd) = used iv.
Proof.
  intros iv rnd [->|I] L; [exact (initial_counter rnd L)|]. rewrite initial_ne by exact I. destruct iv; [discriminate I|reflexivity].
Qed.
Lemma update_room : forall iv p, iv12 iv -> small_payload p -> ctr_part iv + blocks16 p < 2 ^ 32 - 1 -> exists iv2, update_iv iv (blen p) = Ok iv2 /\ iv12 iv2 /\ rand_part iv2 = rand_part iv /\ ctr_part iv2 = ctr_part iv + blocks16 p.
Proof.
  intros iv p I S H. assert (B : aes_blocks (blen p) = blocks16 p) by (apply aes_blocks_small; exact S).
  assert (U : update_iv iv (blen p) = Ok (iv_prefix iv ++ be_enc 4 (ctr_part iv + blocks16 p) ++ skipn 12 iv)).
  { unfold update_iv. rewrite blen12 by exact I. rewrite B. change (iv_counter iv) with (ctr_part iv). unfold u32_max. pose proof (ctr_bound iv) as CB. change (iv_counter iv) with (ctr_part iv) in CB.
    destruct (N.leb_spec (4294967295 - ctr_part iv) (blocks16 p)); [lia|reflexivity]. }
  eexists. split; [exact U|]. destruct (update_iv_spec _ _ _ I U) as (U1 & U2 & U3 & _). rewrite B in U3. auto.
Qed.
(** One encryption through an IV with room. *)
Lemma send_ok : forall E key p ad iv rnd, iv_sound iv -> length rnd = 8%nat -> small_payload p -> has_room iv p ->
  exists iv2, encode_aes E key p ad iv rnd = (Ok (sealed E key (initial_iv iv rnd) ad p), iv2) /\ update_iv (initial_iv iv rnd) (blen p) = Ok iv2 /\ iv12 iv2 /\
    rand_part iv2 = rand_part (initial_iv iv rnd) /\ ctr_part iv2 = used iv + blocks16 p.
Proof.
  intros E key p ad iv rnd I L S H. pose proof (iv12_initial iv rnd I L) as I1.
  destruct (update_room (initial_iv iv rnd) p I1 S) as (iv2 & U & A & B & C); [rewrite initial_room by assumption; exact H|].
  exists iv2. destruct (encode_aes_spec E key p ad iv rnd I L) as [(iv3 & U3 & X)|[U3 _]]; [|congruence]. assert (iv3 = iv2) as -> by congruence.
  split; [exact X|]. split; [exact U|]. split; [exact A|]. split; [exact B|]. rewrite C, initial_room by assumption. reflexivity.
Qed.
Lemma sealed_opens_x : forall E sk key iv id n l, aes_laws E -> iv12 iv -> Forall wf_tlv l -> fits (enc_tlvs l) ->
  opens E key id (signed_interest E sk n (sealed E key iv id (enc_tlvs l))) l.
Proof.
  intros E sk key iv id n l LA I W F. destruct (sealed_parse E key iv id (enc_tlvs l) LA I F) as (ct & tag & EN & _ & _ & P).
  eexists. eexists. eexists. eexists. exists (enc_tlvs l). unfold params_of, signed_interest. cbn [i_params]. split; [exact P|].
  split; [reflexivity|]. split; [reflexivity|]. split; [reflexivity|]. cbn [t_val]. split; [exact (l_aes_dec_enc E LA _ _ _ _ _ _ EN)|]. apply parse_enc, W.
Qed.
Lemma challenge_interest : forall E s ri params els kn sk, aes_laws E -> sig_laws E -> step_payload (rs_ctype s) (rs_status s) (rs_cstatus s) params els ->
  rs_keypair s = Some (kn, sk) -> iv_sound (rs_eiv s) -> Forall wf_tlv els -> small_payload (enc_tlvs els) -> has_room (rs_eiv s) (enc_tlvs els) ->
  exists x s', gen_challenge E s ri params = (Ok x, s') /\ sent_to (p_prefix (rs_profile s)) [gc (bs "CHALLENGE"); gc (rs_id s)] x /\ signed_by E x (o_pub E sk) /\
    opens E (rs_key s) (rs_id s) x els /\ s' = upd_eiv (rs_eiv s') s /\ iv12 (rs_eiv s') /\
    ctr_part (rs_eiv s') = used (rs_eiv s) + blocks16 (enc_tlvs els) /\ rand_part (rs_eiv s') = rand_part (initial_iv (rs_eiv s) (be_enc 8 (ri_iv ri))).
Proof.
  intros E s ri params els kn sk LA SL P KP I W S H. apply step_payload_iff in P. pose proof (be_enc_length 8 (ri_iv ri)) as RL.
  destruct (send_ok E (rs_key s) (enc_tlvs els) (rs_id s) (rs_eiv s) (be_enc 8 (ri_iv ri)) I RL S H) as (iv2 & EN & U & A & B & C).
  assert (GC : gen_challenge E s ri params = (Ok (signed_interest E sk (p_prefix (rs_profile s) ++ [r_CA; gc (bs "CHALLENGE"); gc (rs_id s)]) (sealed E (rs_key s) (initial_iv (rs_eiv s) (be_enc 8 (ri_iv ri))) (rs_id s) (enc_tlvs els))), upd_eiv iv2 s)).
  { unfold gen_challenge. rewrite P, EN, KP. destruct (rs_ctype s) as [|a l]; [discriminate P|reflexivity]. }
  rewrite GC. eexists. eexists. split; [reflexivity|]. split; [exact (sent_signed _ _ _ [gc (bs "CHALLENGE"); gc (rs_id s)] _)|]. split; [apply signed_signed, SL|].
  split; [apply sealed_opens_x; [exact LA|apply iv12_initial; assumption|exact W|apply small_fits, S]|].
  split; [reflexivity|]. split; [exact A|]. split; [exact C|exact B].
Qed.
Lemma challenge_only : forall E s ri params o s', iv_sound (rs_eiv s) -> gen_challenge E s ri params = (o, s') ->
  s' = upd_eiv (rs_eiv s') s /\ ((exists x els, o = Ok x /\ step_payload (rs_ctype s) (rs_status s) (rs_cstatus s) params els /\ rs_keypair s <> None) \/ o = Exn).
Proof.
  intros E s ri params o s' I H. assert (SS : upd_eiv (rs_eiv s) s = s) by (destruct s; reflexivity). unfold gen_challenge in H.
  destruct (rs_ctype s) as [|a l] eqn:CT; [injection H as <- <-; rewrite SS; auto|]. rewrite <- CT in *.
  destruct (gen_tlv_safe (rs_ctype s) (rs_status s) (rs_cstatus s) params) as [U1 U2].
  destruct (gen_challenge_tlv (rs_ctype s) (rs_status s) (rs_cstatus s) params) as [[els| | |]|] eqn:G; try contradiction; try (injection H as <- <-; rewrite SS; auto; fail).
  apply step_payload_iff in G.
  destruct (encode_aes_spec E (rs_key s) (enc_tlvs els) (rs_id s) (rs_eiv s) (be_enc 8 (ri_iv ri)) I (be_enc_length 8 _)) as [(iv2 & _ & X)|[_ X]]; rewrite X in H; [|injection H as <- <-; split; [reflexivity|auto]].
  destruct (rs_keypair s) as [[kn sk]|] eqn:KP; injection H as <- <-; (split; [reflexivity|]); [left|right; reflexivity].
  eexists. exists els. split; [reflexivity|]. split; [exact G|discriminate].
Qed.

(** ** Parameters asked for and parameters accepted *)
Lemma asks_iff : forall s ty ks, step_asks ty (rs_status s) (rs_cstatus s) ks <-> exists m, select_challenge s ty = (Ok m, upd_ctype ty s) /\ map fst m = ks.
Proof.
  intros s ty ks. unfold select_challenge. split.
  - intros H. inversion H as [cst Q1 Q2 Q3|cst W Q1 Q2 Q3|Q1 Q2 Q3|cst W Q1 Q2 Q3|cst Q1 Q2 Q3|Q1 Q2 Q3]; try rewrite <- Q2;
    try (destruct W as [W|W]; rewrite W); try rewrite <- Q3; eexists; (split; [reflexivity|reflexivity]).
  - intros (m & H & <-). destruct (requested_params ty (rs_status s) (rs_cstatus s)) as [r|] eqn:R; [|discriminate]. injection H as ->. unfold requested_params in R.
    destruct (bytes_eqb ty CH_PIN) eqn:T1.
    { apply bytes_eqb_eq in T1. subst ty. injection R as R. destruct (N.eqb_spec (rs_status s) ST_BEFORE) as [Q|N1]; [rewrite Q; injection R as <-; apply sa_pin|].
      destruct (N.eqb_spec (rs_status s) ST_CHALLENGE) as [Q|N2]; [rewrite Q|discriminate]. cbn [andb] in R.
      destruct (bytes_eqb (rs_cstatus s) NEED_CODE) eqn:W; [injection R as <-; apply bytes_eqb_eq in W; apply sa_pin_code; left; exact W|].
      destruct (bytes_eqb (rs_cstatus s) WRONG_CODE) eqn:W2; [injection R as <-; apply bytes_eqb_eq in W2; apply sa_pin_code; right; exact W2|discriminate]. }
    destruct (bytes_eqb ty CH_EMAIL) eqn:T2.
    { apply bytes_eqb_eq in T2. subst ty. injection R as R. destruct ((rs_status s =? ST_BEFORE) && bytes_eqb (rs_cstatus s) []) eqn:Q.
      { apply andb_true_iff in Q as [Q1 Q2]. apply N.eqb_eq in Q1. apply bytes_eqb_eq in Q2. rewrite Q1, Q2. injection R as <-. apply sa_email. }
      destruct (N.eqb_spec (rs_status s) ST_CHALLENGE) as [Q'|N2]; [rewrite Q'|discriminate]. cbn [andb] in R.
      destruct (bytes_eqb (rs_cstatus s) NEED_CODE) eqn:W; [injection R as <-; apply bytes_eqb_eq in W; apply sa_email_code; left; exact W|].
      destruct (bytes_eqb (rs_cstatus s) WRONG_CODE) eqn:W2; [injection R as <-; apply bytes_eqb_eq in W2; apply sa_email_code; right; exact W2|discriminate]. }
    destruct (bytes_eqb ty CH_POSSESSION) eqn:T3; [|discriminate]. apply bytes_eqb_eq in T3. subst ty. injection R as R. destruct (N.eqb_spec (rs_status s) ST_BEFORE) as [Q|N1]; [rewrite Q; injection R as <-; apply sa_credential|].
    destruct (N.eqb_spec (rs_status s) ST_CHALLENGE) as [Q|N2]; [rewrite Q|discriminate]. cbn [andb] in R. destruct (bytes_eqb (rs_cstatus s) NEED_PROOF) eqn:W; [|discriminate]. apply bytes_eqb_eq in W. rewrite W. injection R as <-. apply sa_proof.
Qed.
Lemma asked_accepted : forall ty st cst ks m, step_asks ty st cst ks -> map fst m = ks ->
  (forall w, In (bs "issued-cert", w) m -> exists t rest, dec_elem w = Some (t, rest)) -> exists els, step_payload ty st cst m els.
Proof.
  intros ty st cst ks m H M C.
  assert (ONE : forall k, map fst m = [k] -> exists v, m = [(k, v)]). { intros k Q. destruct m as [|[k' v] [|]]; try discriminate. injection Q as ->. eauto. }
  destruct H as [cst|cst W| |cst W|cst| ].
  - eexists. apply sp_pin.
  - destruct (ONE _ M) as (v & ->). eexists. apply sp_pin_code, W.
  - destruct (ONE _ M) as (v & ->). eexists. apply sp_email.
  - destruct (ONE _ M) as (v & ->). eexists. apply sp_email_code, W.
  - destruct (ONE _ M) as (v & ->). destruct (C v (or_introl eq_refl)) as (t & rest & D). eexists. exact (sp_credential _ _ _ _ D).
  - destruct (ONE _ M) as (v & ->). eexists. apply sp_proof.
Qed.

(** ** Discovery *)
Lemma get_neg_1 : forall a c, get_neg 1 (a ++ [c]) = Some c.
Proof. intros a c. exact (get_neg_app a [c] ltac:(cbn; lia)). Qed.
Lemma discovery_name : forall n last, t_val last <> bs "CA" -> gen_discovery (n ++ [last]) = Ok (Interest ((n ++ [last]) ++ [gc (bs "CA"); gc (bs "INFO"); Tlv T_Keyword (bs "metadata")]) None None).
Proof.
  intros n last H. unfold gen_discovery. rewrite get_neg_1. cbn [of_opt bind]. apply bytes_eqb_neq in H. rewrite H. rewrite <- !app_assoc. reflexivity.
Qed.
Lemma discovery_name_ca : forall n last, t_val last = bs "CA" -> gen_discovery (n ++ [last]) = Ok (Interest ((n ++ [last]) ++ [gc (bs "INFO"); Tlv T_Keyword (bs "metadata")]) None None).
Proof. intros n last H. unfold gen_discovery. rewrite get_neg_1. cbn [of_opt bind]. rewrite H. reflexivity. Qed.
Lemma version_is : forall v, v < 2 ^ 64 -> is_version (version_comp v) = true.
Proof. intros v B. unfold is_version, is_number, version_comp. cbn [t_type t_val]. rewrite nni_dec_enc by exact B. reflexivity. Qed.
Lemma discovered : forall E g S (ops : store_ops S) s i x es n last, reachable E g ops s -> p_prefix (cfp g) = n ++ [last] -> t_val last <> bs "CA" ->
  gen_discovery (p_prefix (cfp g)) = Ok x -> on_interest E g ops s i x = (es, Ok tt) ->
  in_mversion i < 2 ^ 64 ->
  exists d m v y, puts es = [m] /\ on_get_profile E g (ca_prof s) i = (removelast es, Ok d) /\ data_signed_by E d (cf_sk g) /\ d_name d = profile_name g v /\
    ca_prof (apply_effs ops es s) = Some d /\
    (v < 2 ^ 64 -> name_fits (p_prefix (cfp g) ++ [gc (bs "CA"); gc (bs "INFO"); version_comp v]) -> gen_profile_interest m = Ok y /\ i_name y = d_name d).
Proof.
  intros E g S ops s i x es n last RE PX NC GD OI MV. rewrite PX, discovery_name in GD by exact NC. injection GD as <-.
  assert (AD : addressed g VInfo (i_name (Interest ((n ++ [last]) ++ [gc (bs "CA"); gc (bs "INFO"); Tlv T_Keyword (bs "metadata")]) None None))) by (unfold addressed; cbn [i_name]; rewrite PX; exists []; reflexivity).
  destruct (discovery_reply E g S ops s i _ es RE AD OI) as (d & m & v & A & B & C & D & P & F & G & H).
  exists d, m, v. eexists. split; [exact B|]. split; [exact A|]. split; [exact D|]. split; [exact C|]. split; [exact P|]. intros VB NF.
  unfold gen_profile_interest, metadata_decode. rewrite H, F.
  assert (G3 : forall a b c d e f, get_neg 3 (a ++ [b; c; d; e; f]) = Some d). { intros a b0 c0 d0 e0 f0. exact (eq_trans (f_equal (get_neg 3) (app_assoc a [b0; c0] [d0; e0; f0])) (get_neg_app _ [d0; e0; f0] ltac:(cbn; lia))). }
  assert (G2 : forall a b c d e f, get_neg 2 (a ++ [b; c; d; e; f]) = Some e). { intros a b0 c0 d0 e0 f0. exact (eq_trans (f_equal (get_neg 2) (app_assoc a [b0; c0; d0] [e0; f0])) (get_neg_app _ [e0; f0] ltac:(cbn; lia))). }
  assert (G1 : forall a b c d e f, get_neg 1 (a ++ [b; c; d; e; f]) = Some f). { intros a b0 c0 d0 e0 f0. exact (eq_trans (f_equal (get_neg 1) (app_assoc a [b0; c0; d0; e0] [f0])) (get_neg_app _ [f0] ltac:(cbn; lia))). }
  rewrite G3, G2, G1, comp_eqb_refl, version_is by exact MV. change (is_segment (Tlv T_Segment (nni_enc 0))) with true. cbn [andb].
  unfold name_wire. rewrite block_from_value_enc by (apply name_tlv_wf; exact NF). cbn [of_opt bind]. rewrite name_decode_tlv by apply NF. cbn [of_opt bind].
  assert (G0 : forall a b c d, get_neg 1 (a ++ [b; c; d]) = Some d). { intros a b0 c0 d0. exact (eq_trans (f_equal (get_neg 1) (app_assoc a [b0; c0] [d0])) (get_neg_app _ [d0] ltac:(cbn; lia))). }
  rewrite G0, version_is by exact VB. split; [reflexivity|]. cbn [i_name]. rewrite C. unfold profile_name. rewrite <- app_assoc. reflexivity.
Qed.
Lemma number_iff : forall ty c, numbers ty c <-> (t_type c =? ty) && is_number c = true.
Proof.
  intros ty c. unfold numbers, is_number, nni_dec. rewrite Bool.andb_true_iff, N.eqb_eq. split; intros [A B]; (split; [exact A|]).
  - destruct B as [<-|[<-|[<-|[<-|[]]]]]; reflexivity.
  - destruct (length (t_val c)) as [|[|[|[|[|[|[|[|[|k]]]]]]]]]; try discriminate; cbn; auto 6.
Qed.
Lemma one_block : forall b t, block_from_value b = Some t <-> parse b = Some [t].
Proof.
  intros b t. unfold block_from_value. destruct b as [|x b]; [split; discriminate|]. rewrite parse_step by discriminate.
  destruct (dec_elem (x :: b)) as [[u rest]|]; [|split; discriminate]. destruct rest as [|y rest]; [rewrite parse_nil; split; intros H; injection H as <-; reflexivity|].
  split; [discriminate|]. rewrite parse_step by discriminate. destruct (dec_elem (y :: rest)) as [[v r2]|]; [|discriminate]. destruct (parse r2); discriminate.
Qed.
Lemma get_neg_last : forall k n c, get_neg (Datatypes.S k) n = Some c -> exists a b, n = a ++ c :: b /\ length b = k.
Proof.
  intros k n c H. unfold get_neg in H. destruct (Nat.leb (Datatypes.S k) (length n)) eqn:L; [|discriminate]. apply PeanoNat.Nat.leb_le in L.
  apply nth_error_split in H as (a & b & -> & LA). exists a, b. split; [reflexivity|]. rewrite app_length in *. cbn [length] in *. lia.
Qed.
Lemma last_three : forall n k v s, get_neg 3 n = Some k -> get_neg 2 n = Some v -> get_neg 1 n = Some s -> exists a, n = a ++ [k; v; s].
Proof.
  intros n k v s H3 H2 H1. destruct (get_neg_last 2 n k H3) as (a & b & -> & LB). destruct b as [|v' [|s' [|? ?]]]; try discriminate LB.
  pose proof (eq_trans (f_equal (get_neg 2) (app_assoc a [k] [v'; s'])) (get_neg_app _ [v'; s'] ltac:(cbn; lia))) as Q2. cbn [app] in Q2. rewrite Q2 in H2. injection H2 as ->.
  pose proof (eq_trans (f_equal (get_neg 1) (app_assoc a [k; v] [s'])) (get_neg_app _ [s'] ltac:(cbn; lia))) as Q1. cbn [app] in Q1. rewrite Q1 in H1. injection H1 as ->. eauto.
Qed.
Lemma metadata_iff : forall d y, gen_profile_interest d = Ok y <-> exists n, metadata_for d n /\ y = Interest (n ++ [Tlv 50 [x00]]) None None.
Proof.
  intros d y. unfold gen_profile_interest, metadata_decode. split.
  - intros H. destruct (get_neg 3 (d_name d)) as [k|] eqn:G3; [|discriminate]. destruct (get_neg 2 (d_name d)) as [v|] eqn:G2; [|discriminate].
    destruct (get_neg 1 (d_name d)) as [s|] eqn:G1; [|discriminate]. destruct (comp_eqb k _ && is_version v && is_segment s) eqn:B; [|discriminate].
    apply Bool.andb_true_iff in B as [B SG]. apply Bool.andb_true_iff in B as [KW VR]. apply comp_eqb_eq in KW. subst k. destruct (last_three _ _ _ _ G3 G2 G1) as (pre & Q).
    destruct (block_from_value (d_content d)) as [t|] eqn:BF; [|discriminate]. cbn [of_opt bind] in H. apply one_block in BF. unfold name_decode in H. destruct (t_type t =? T_Name) eqn:TN; [|discriminate].
    apply N.eqb_eq in TN. destruct (parse (t_val t)) as [n|] eqn:PN; [|discriminate]. cbn [of_opt bind] in H. destruct (get_neg 1 n) as [c|] eqn:GN; [|discriminate]. destruct (is_version c) eqn:VC; [|discriminate].
    cbn [bind] in H. injection H as <-. exists n. split; [|reflexivity]. destruct (get_neg_last 0 n c GN) as (n0 & b & QN & LB). destruct b; [|discriminate LB].
    exists pre, v, s, t, n0, c. split; [exact Q|]. split; [apply number_iff, VR|]. split; [apply number_iff, SG|]. split; [exact BF|]. split; [exact TN|]. split; [exact PN|]. split; [exact QN|]. apply number_iff, VC.
  - intros (n & (pre & v & s & t & n0 & c & Q & VR & SG & BF & TN & PN & QN & VC) & ->). apply number_iff in VR, SG, VC. apply one_block in BF.
    assert (G3 : get_neg 3 (pre ++ [Tlv 32 (bs "metadata"); v; s]) = Some (Tlv 32 (bs "metadata"))) by exact (get_neg_app pre [Tlv 32 (bs "metadata"); v; s] ltac:(cbn; lia)).
    assert (G2 : get_neg 2 (pre ++ [Tlv 32 (bs "metadata"); v; s]) = Some v) by (exact (eq_trans (f_equal (get_neg 2) (app_assoc pre [_] [v; s])) (get_neg_app _ [v; s] ltac:(cbn; lia)))).
    assert (G1 : get_neg 1 (pre ++ [Tlv 32 (bs "metadata"); v; s]) = Some s) by (exact (eq_trans (f_equal (get_neg 1) (app_assoc pre [_; v] [s])) (get_neg_app _ [s] ltac:(cbn; lia)))).
    rewrite Q, G3, G2, G1. change (Tlv 32 (bs "metadata")) with (Tlv T_Keyword (bs "metadata")). rewrite comp_eqb_refl. unfold is_version at 1, is_segment. unfold T_Version, T_Segment. rewrite VR, SG. cbn [andb].
    rewrite BF. cbn [of_opt bind]. unfold name_decode. apply N.eqb_eq in TN. unfold T_Name. rewrite TN, PN. cbn [of_opt bind]. rewrite QN, get_neg_1. unfold is_version, T_Version. rewrite VC. reflexivity.
Qed.
