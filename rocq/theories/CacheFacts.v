(** Proofs of C124. *)
From Verif Require Export Spec_Cache KeychainFacts ClientFacts.
From Verif Require Import RequesterFacts CryptoFacts ClientSessionFacts CaProps.
Local Open Scope N_scope.

Lemma packet_fits : forall p, blen p <= 8800 -> fits p.
Proof. intros p H. unfold fits. lia. Qed.
Lemma element_inj : forall p q, fits p -> fits q -> enc_tlv (Tlv T_AppParams p) = enc_tlv (Tlv T_AppParams q) -> p = q.
Proof.
  intros p q P Q H. assert (A : parse (enc_tlv (Tlv T_AppParams p)) = Some [Tlv T_AppParams p]) by (apply parse_one; wft; exact P).
  assert (B : parse (enc_tlv (Tlv T_AppParams q)) = Some [Tlv T_AppParams q]) by (apply parse_one; wft; exact Q). rewrite H in A. rewrite A in B. injection B as ->. reflexivity.
Qed.
Lemma same_name : forall E x y, digest_last E x -> digest_last E y -> in_packet x -> in_packet y -> no_collision E x y -> i_name x = i_name y -> i_params x = i_params y.
Proof.
  intros E x y (n & a & A & NX) (m & b & B & NY) (p & PX & LX) (q & PY & LY) NC H. rewrite NX, NY in H. apply app_inj_tail in H as [_ H]. injection H as H.
  specialize (NC a b A B H). destruct A as (p' & P' & ->), B as (q' & Q' & ->). rewrite PX in P'. injection P' as <-. rewrite PY in Q'. injection Q' as <-.
  apply element_inj in NC; [|apply packet_fits; assumption..]. congruence.
Qed.
Lemma signed_last : forall E sk n p, digest_last E (signed_interest E sk n p).
Proof. intros. exists n, (enc_tlv (Tlv T_AppParams p)). split; [exists p; split; reflexivity|reflexivity]. Qed.
Lemma unsigned_last : forall E n p, digest_last E (unsigned_interest E n p).
Proof. intros. exists n, (enc_tlv (Tlv T_AppParams p)). split; [exists p; split; reflexivity|reflexivity]. Qed.
Lemma probe_last : forall E p params, digest_last E (gen_probe E p params).
Proof. intros. apply unsigned_last. Qed.
Lemma made_last : forall E p s c o s' x, call_req E p s c = (o, s') -> makes (c, o) x -> digest_last E x.
Proof.
  intros E p s c o s' x H M. unfold makes in M. cbn [snd] in M. destruct c as [ri kn nb na|c|ri d|t|ri m|ri d|]; cbn [call_req] in H.
  - destruct (gen_new_from E p s ri kn nb na) as [o0 s0] eqn:G. injection H as <- _. destruct M as [M|[M|M]]; try discriminate. injection M as ->.
    destruct (from_cases E p s ri kn nb na) as [(sk & I & U & Q)|(o1 & n & O & Q)]; rewrite Q in G.
    + pose proof U as (_ & identity & kid & KN). rewrite (gen_new_eq E s ri kn sk nb na identity kid U KN) in G. injection G as <- _. apply signed_last.
    + destruct O as [-> | ->]; discriminate.
  - injection H as <- _. destruct M as [M|[M|M]]; try discriminate. injection M as M. unfold gen_revoke in M. destruct (negb _); [discriminate|]. injection M as <-. apply unsigned_last.
  - destruct (on_new_response E s ri d). injection H as <- _. destruct M as [M|[M|M]]; discriminate.
  - destruct (select_challenge s t). injection H as <- _. destruct M as [M|[M|M]]; discriminate.
  - destruct (gen_challenge E s ri m) as [o0 s0] eqn:G. injection H as <- _. destruct M as [M|[M|M]]; try discriminate. injection M as ->. unfold gen_challenge in G. destruct (rs_ctype s); [discriminate|].
    destruct (gen_challenge_tlv _ _ _ _) as [[els| | |]|]; try discriminate. destruct (encode_aes _ _ _ _ _ _) as [[w| | |] iv]; try discriminate. destruct (rs_keypair s) as [[kn sk]|]; [|discriminate]. injection G as <- _. apply signed_last.
  - destruct (on_challenge_response E s ri d). injection H as <- _. destruct M as [M|[M|M]]; discriminate.
  - injection H as <- _. destruct M as [M|[M|M]]; discriminate.
Qed.

(** ** One reply *)
Lemma reply_name : forall E g S (ops : store_ops S) s i x es d, ca_at E g ops s ->
  addressed g VProbe (i_name x) \/ addressed g VNew (i_name x) \/ addressed g VRevoke (i_name x) \/ addressed g VChallenge (i_name x) ->
  on_interest E g ops s i x = (es, Ok tt) -> In d (puts es) -> d_name d = i_name x.
Proof.
  intros E g S ops s i x es d R [A|A] H D.
  - destruct (probe_reply _ _ _ _ _ _ _ _ A H) as [(d0 & -> & N & _)|[-> _]]; cbn in D; [destruct D as [<- |[]]; exact N|contradiction].
  - destruct (one_reply _ _ _ _ _ _ _ _ R A H) as (d0 & P & N & _). rewrite P in D. destruct D as [<- |[]]. exact N.
Qed.
Lemma own_reply : forall E g S (ops : store_ops S) s i x es d y, ca_at E g ops s ->
  addressed g VProbe (i_name x) \/ addressed g VNew (i_name x) \/ addressed g VRevoke (i_name x) \/ addressed g VChallenge (i_name x) ->
  on_interest E g ops s i x = (es, Ok tt) -> In d (puts es) ->
  digest_last E x -> digest_last E y -> in_packet x -> in_packet y -> no_collision E x y ->
  satisfies d y -> i_name x = i_name y /\ i_params x = i_params y.
Proof.
  intros E g S ops s i x es d y R A H D X Y PX PY NC SD. unfold satisfies in SD. rewrite (reply_name _ _ _ _ _ _ _ _ _ R A H D) in SD. split; [exact SD|]. exact (same_name _ _ _ X Y PX PY NC SD).
Qed.

(** ** CHALLENGE Interests of one request *)
Lemma payload_nonempty : forall ty st cst m els, gen_challenge_tlv ty st cst m = Some (Ok els) -> enc_tlvs els <> [].
Proof.
  intros ty st cst m els H. apply step_payload_iff in H. assert (Q : exists t l, els = t :: l) by (inversion H; eauto). destruct Q as (t & l & ->).
  intros X. apply (f_equal (@length _)) in X. cbn [enc_tlvs] in X. unfold enc_tlv in X. rewrite !app_length in X. cbn [length] in X.
  assert (0 < length (enc_var (t_type t)))%nat by (unfold enc_var; repeat match goal with |- context [if ?b then _ else _] => destruct b end; cbn [length]; lia). lia.
Qed.
Lemma sealed_longer : forall E key iv ad p, aes_laws E -> blen p <= blen (sealed E key iv ad p).
Proof.
  intros E key iv ad p L. unfold sealed. destruct (o_aes_enc E key iv ad p) as [ct tag] eqn:Q. destruct (l_aes_len E L _ _ _ _ _ _ Q) as [LC _].
  cbn [enc_tlvs]. unfold enc_tlv, blen. cbn [t_val]. rewrite !app_length, LC. lia.
Qed.
(** What one call does to the state of the initialization vector. *)
Lemma call_iv : forall E p s c o s', iv_sound (rs_eiv s) -> call_req E p s c = (o, s') ->
  iv_sound (rs_eiv s') /\ (iv12 (rs_eiv s) -> iv12 (rs_eiv s') /\ iv_counter (rs_eiv s) <= iv_counter (rs_eiv s')) /\
  (forall x, aes_laws E -> o = OChallenge (Ok x) -> in_packet x -> exists iv q, i_params x = Some q /\ wire_iv q = Some iv /\
     (iv12 (rs_eiv s) -> iv = rs_eiv s) /\ iv12 (rs_eiv s') /\ iv_counter iv < iv_counter (rs_eiv s')).
Proof.
  intros E p s c o s' IV H.
  assert (SAME : rs_eiv s' = rs_eiv s -> (forall x, o <> OChallenge (Ok x)) ->
    iv_sound (rs_eiv s') /\ (iv12 (rs_eiv s) -> iv12 (rs_eiv s') /\ iv_counter (rs_eiv s) <= iv_counter (rs_eiv s')) /\
    (forall x, aes_laws E -> o = OChallenge (Ok x) -> in_packet x -> exists iv q, i_params x = Some q /\ wire_iv q = Some iv /\
     (iv12 (rs_eiv s) -> iv = rs_eiv s) /\ iv12 (rs_eiv s') /\ iv_counter iv < iv_counter (rs_eiv s'))).
  { intros Q N. rewrite Q. split; [exact IV|]. split; [intros I; split; [exact I|lia]|]. intros x _ O. destruct (N x O). }
  destruct c as [ri kn nb na|c|ri d|t|ri m|ri d|]; cbn [call_req] in H.
  - destruct (from_cases E p s ri kn nb na) as [(sk & I & U & Q)|(o0 & n & O & Q)]; rewrite Q in H.
    + pose proof U as (_ & identity & kid & KN). rewrite (gen_new_eq E s ri kn sk nb na identity kid U KN) in H. injection H as <- <-. apply SAME; [reflexivity|discriminate].
    + injection H as <- <-. apply SAME; [reflexivity|discriminate].
  - injection H as <- <-. apply SAME; [reflexivity|discriminate].
  - destruct (on_new_response E s ri d) as [o0 s0] eqn:N. injection H as <- <-. apply SAME; [|discriminate]. apply new_kept in N as [F A].
    destruct o0; [rewrite (A _ eq_refl); reflexivity|..]; (assert (X : same_but_id s s0) by (apply F; intros ? ?; discriminate); unfold same_but_id in X; rewrite X; reflexivity).
  - unfold select_challenge in H. destruct (requested_params _ _ _); injection H as <- <-; (apply SAME; [reflexivity|discriminate]).
  - destruct (gen_challenge E s ri m) as [o0 s0] eqn:G. injection H as <- <-. unfold gen_challenge in G.
    destruct (rs_ctype s) as [|b0 l0] eqn:CT; [injection G as <- <-; apply SAME; [reflexivity|discriminate]|]. rewrite <- CT in *.
    destruct (gen_challenge_tlv _ _ _ _) as [[els| | |]|] eqn:GT; try (injection G as <- <-; apply SAME; [reflexivity|discriminate]).
    assert (L8 : length (be_enc 8 (ri_iv ri)) = 8%nat) by apply be_enc_length.
    generalize dependent (be_enc 8 (ri_iv ri)). intros r8 G L8.
    pose proof (iv12_initial (rs_eiv s) r8 IV L8) as I12.
    destruct (encode_aes_spec E (rs_key s) (enc_tlvs els) (rs_id s) (rs_eiv s) r8 IV L8) as [(iv2 & U & Q)|[U Q]]; rewrite Q in G.
    + destruct (update_iv_spec _ _ _ I12 U) as (U1 & U2 & U3 & U4).
      assert (ST : iv_sound iv2 /\ (iv12 (rs_eiv s) -> iv12 iv2 /\ iv_counter (rs_eiv s) <= iv_counter iv2)).
      { split; [right; exact U1|]. intros I. rewrite initial_ne in U3 by exact I. split; [exact U1|lia]. }
      destruct (rs_keypair s) as [[kn sk]|] eqn:KP; injection G as <- <-; cbn [rs_eiv upd_eiv]; (split; [apply ST|]); (split; [apply ST|]); intros x L O (q & PQ & LQ); [|discriminate O].
      injection O as <-. unfold signed_interest in PQ. cbn [i_params] in PQ. injection PQ as <-. pose proof (sealed_longer E (rs_key s) (initial_iv (rs_eiv s) r8) (rs_id s) (enc_tlvs els) L) as LG.
      assert (FP : blen (enc_tlvs els) <= 8800) by lia.
      eexists. eexists. split; [reflexivity|]. split; [apply sealed_iv; [exact L|exact I12|exact (packet_fits _ FP)]|]. split; [intros I; apply initial_ne, I|]. split; [exact U1|]. rewrite U3.
      assert (POS : 0 < aes_blocks (blen (enc_tlvs els))).
      { rewrite aes_blocks_small by lia. pose proof (payload_nonempty _ _ _ _ _ GT) as NE. destruct (enc_tlvs els) as [|b q]; [contradiction|]. unfold blen. cbn [length]. apply N.div_str_pos. lia. }
      lia.
    + injection G as <- <-. cbn [rs_eiv upd_eiv]. split; [right; exact I12|]. split; [intros I; split; [exact I12|rewrite initial_ne by exact I; lia]|]. intros x _ O. discriminate O.
  - destruct (on_challenge_response E s ri d) as [o0 s0] eqn:G. injection H as <- <-. apply SAME; [|discriminate]. apply challenge_kept in G. unfold same_session in G. apply G.
  - injection H as <- <-. apply SAME; [reflexivity|discriminate].
Qed.
Lemma performs_iv : forall E p s l s', performs E p s l s' -> iv_sound (rs_eiv s) ->
  iv_sound (rs_eiv s') /\ (iv12 (rs_eiv s) -> iv12 (rs_eiv s') /\ iv_counter (rs_eiv s) <= iv_counter (rs_eiv s')).
Proof.
  intros E p s l s' H. induction H as [s|s c o s1 l s2 C H IH]; intros IV; [split; [exact IV|intros I; split; [exact I|lia]]|].
  destruct (call_iv _ _ _ _ _ _ IV C) as (S1 & M & _). destruct (IH S1) as [S2 M2]. split; [exact S2|]. intros I. destruct (M I) as [I1 L1]. destruct (M2 I1) as [I2 L2]. split; [exact I2|lia].
Qed.
Lemma performs_app : forall E p s a b s2, performs E p s (a ++ b) s2 -> exists s1, performs E p s a s1 /\ performs E p s1 b s2.
Proof.
  intros E p s a. revert s. induction a as [|[c o] a IH]; intros s b s2 H; [exists s; split; [constructor|exact H]|]. cbn [app] in H. inversion H as [|? ? ? s1 ? ? C R]; subst.
  destruct (IH _ _ _ R) as (s3 & A & B). exists s3. split; [econstructor; eassumption|exact B].
Qed.
Lemma challenges_differ : forall E p pr rt ecdh id0 a b l c1 c2 x y s, aes_laws E ->
  performs E p (request_init pr rt ecdh id0) (a ++ (c1, OChallenge (Ok x)) :: b ++ (c2, OChallenge (Ok y)) :: l) s ->
  in_packet x -> in_packet y -> i_params x <> i_params y.
Proof.
  intros E p pr rt ecdh id0 a b l c1 c2 x y s L H PX PY Q. apply performs_app in H as (s1 & A & H). inversion H as [|? ? ? s2 ? ? C1 H1]; subst. apply performs_app in H1 as (s3 & B & H2). inversion H2 as [|? ? ? s4 ? ? C2 _]; subst.
  destruct (performs_iv _ _ _ _ _ A (or_introl eq_refl)) as [V1 _]. destruct (call_iv _ _ _ _ _ _ V1 C1) as (V2 & _ & X). destruct (X x L eq_refl PX) as (i & q & PQ & W & _ & I2 & LT).
  destruct (performs_iv _ _ _ _ _ B V2) as [V3 M3]. destruct (M3 I2) as [I3 LE]. destruct (call_iv _ _ _ _ _ _ V3 C2) as (_ & _ & Y). destruct (Y y L eq_refl PY) as (j & q2 & PQ2 & W2 & J & _ & _).
  rewrite Q, PQ2 in PQ. injection PQ as ->. rewrite W in W2. injection W2 as ->. rewrite (J I3) in LT. lia.
Qed.
Lemma challenge_names : forall E p pr rt ecdh id0 a b l c1 c2 x y s, aes_laws E ->
  performs E p (request_init pr rt ecdh id0) (a ++ (c1, OChallenge (Ok x)) :: b ++ (c2, OChallenge (Ok y)) :: l) s ->
  in_packet x -> in_packet y -> no_collision E x y -> i_name x <> i_name y.
Proof.
  intros E p pr rt ecdh id0 a b l c1 c2 x y s L H PX PY NC Q. apply (challenges_differ _ _ _ _ _ _ _ _ _ _ _ _ _ _ L H PX PY).
  assert (DX : digest_last E x /\ digest_last E y).
  { pose proof H as K. apply performs_app in K as (s1 & A & K). inversion K as [|? ? ? s2 ? ? C1 H1]; subst. apply performs_app in H1 as (s3 & B & H2). inversion H2 as [|? ? ? s4 ? ? C2 _]; subst.
    split; [eapply (made_last _ _ _ _ _ _ _ C1)|eapply (made_last _ _ _ _ _ _ _ C2)]; right; right; reflexivity. }
  exact (same_name _ _ _ (proj1 DX) (proj2 DX) PX PY NC Q).
Qed.
Lemma no_stale_reply : forall E p pr rt ecdh id0 a b l c1 c2 x y s g S (ops : store_ops S) ca i es d, aes_laws E ->
  performs E p (request_init pr rt ecdh id0) (a ++ (c1, OChallenge (Ok x)) :: b ++ (c2, OChallenge (Ok y)) :: l) s ->
  in_packet x -> in_packet y -> no_collision E x y ->
  ca_at E g ops ca -> addressed g VChallenge (i_name x) -> on_interest E g ops ca i x = (es, Ok tt) -> In d (puts es) -> satisfies d x /\ ~ satisfies d y.
Proof.
  intros E p pr rt ecdh id0 a b l c1 c2 x y s g S ops ca i es d L H PX PY NC R A O D. assert (N : d_name d = i_name x) by (eapply reply_name; eauto). split; [exact N|]. unfold satisfies. rewrite N. eapply challenge_names; eassumption.
Qed.

(** ** NEW and REVOKE Interests of different requests *)
Lemma pub_inj : forall E rt pub c pub' c', rt = RT_NEW \/ rt = RT_REVOKE -> blen (req_encode E rt pub c) <= 8800 -> req_encode E rt pub c = req_encode E rt pub' c' -> pub = pub' /\ enc_tlv (cert_tlv E c) = enc_tlv (cert_tlv E c').
Proof.
  intros E rt pub c pub' c' T L H. set (ty := if rt =? RT_NEW then T_CertRequest else T_CertToRevoke) in *.
  assert (Q : forall pub c, req_encode E rt pub c = enc_tlvs [Tlv T_EcdhPub pub; Tlv ty (enc_tlv (cert_tlv E c))]) by (intros; unfold ty; destruct T as [-> | ->]; reflexivity).
  assert (TY : ty = T_CertRequest \/ ty = T_CertToRevoke) by (unfold ty; destruct T as [-> | ->]; auto).
  assert (P : forall pub c, blen (req_encode E rt pub c) <= 8800 -> parse (req_encode E rt pub c) = Some [Tlv T_EcdhPub pub; Tlv ty (enc_tlv (cert_tlv E c))]).
  { intros u v LU. rewrite Q in LU |- *. assert (B : blen u <= 8800 /\ blen (enc_tlv (cert_tlv E v)) <= 8800).
    { cbn [enc_tlvs] in LU. unfold enc_tlv at 1 2 in LU. unfold blen in LU |- *. cbn [t_val] in LU. rewrite !app_length in LU. lia. }
    apply parse_enc. constructor; [wft; apply packet_fits, B|]. constructor; [|constructor]. destruct TY as [-> | ->]; (wft; apply packet_fits, B). }
  pose proof (P _ _ L) as P1. rewrite H in L, P1. rewrite (P _ _ L) in P1. remember (enc_tlv (cert_tlv E c)) as e. remember (enc_tlv (cert_tlv E c')) as e'. injection P1 as A B. split; congruence.
Qed.
(** The Interest carries this ECDH key and this certificate (C58). *)
Lemma keys_differ : forall E x y rt pub pub' c c', rt = RT_NEW \/ rt = RT_REVOKE -> i_params x = Some (req_encode E rt pub c) -> i_params y = Some (req_encode E rt pub' c') ->
  digest_last E x -> digest_last E y -> in_packet x -> in_packet y -> no_collision E x y -> i_name x = i_name y -> pub = pub' /\ enc_tlv (cert_tlv E c) = enc_tlv (cert_tlv E c').
Proof.
  intros E x y rt pub pub' c c' T X Y DX DY PX PY NC Q. pose proof (same_name _ _ _ DX DY PX PY NC Q) as P. rewrite X, Y in P. assert (P' : req_encode E rt pub c = req_encode E rt pub' c') by congruence. destruct PX as (q & QX & LX). rewrite X in QX. assert (QX' : q = req_encode E rt pub c) by congruence. rewrite QX' in LX. exact (pub_inj _ _ _ _ _ _ T LX P').
Qed.
Lemma new_shape : forall E p s ri kn nb na x s', gen_new_from E p s ri kn nb na = (Ok (Some x), s') ->
  digest_last E x /\ exists sk, i_params x = Some (req_encode E RT_NEW (o_ecdh_pub E (rs_ecdh s)) (cert_request E sk ri kn nb na)).
Proof.
  intros E p s ri kn nb na x s' G. destruct (from_cases E p s ri kn nb na) as [(sk & I & U & Q)|(o1 & n & O & Q)]; rewrite Q in G.
  - pose proof U as (_ & identity & kid & KN). rewrite (gen_new_eq E s ri kn sk nb na identity kid U KN) in G. injection G as <- _. split; [apply signed_last|]. exists sk. reflexivity.
  - destruct O as [-> | ->]; discriminate.
Qed.
Lemma new_names : forall E p q s t ri rj kn km nb na ob oa x y s' t', gen_new_from E p s ri kn nb na = (Ok (Some x), s') -> gen_new_from E q t rj km ob oa = (Ok (Some y), t') ->
  in_packet x -> in_packet y -> no_collision E x y -> o_ecdh_pub E (rs_ecdh s) <> o_ecdh_pub E (rs_ecdh t) -> i_name x <> i_name y.
Proof.
  intros E p q s t ri rj kn km nb na ob oa x y s' t' X Y PX PY NC NE Q. destruct (new_shape _ _ _ _ _ _ _ _ _ X) as (DX & sk & EX). destruct (new_shape _ _ _ _ _ _ _ _ _ Y) as (DY & sk2 & EY).
  apply NE. exact (proj1 (keys_differ _ _ _ _ _ _ _ _ (or_introl eq_refl) EX EY DX DY PX PY NC Q)).
Qed.
Lemma revoke_names : forall E s t c c' x y, gen_revoke E s c = Some x -> gen_revoke E t c' = Some y ->
  in_packet x -> in_packet y -> no_collision E x y -> o_ecdh_pub E (rs_ecdh s) <> o_ecdh_pub E (rs_ecdh t) -> i_name x <> i_name y.
Proof.
  intros E s t c c' x y X Y PX PY NC NE Q. apply NE. unfold gen_revoke in X, Y. destruct (negb _); [discriminate|]. destruct (negb _); [discriminate|]. injection X as <-. injection Y as <-.
  refine (proj1 (keys_differ E _ _ RT_REVOKE _ _ c c' (or_intror eq_refl) _ _ _ _ PX PY NC Q)); first [reflexivity|apply unsigned_last].
Qed.
